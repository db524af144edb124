(** C76: the text of lasinfo's inspection and of --point. *)
From Coq Require Import ZArith List Bool Lia Lra String Ascii Reals.
From Coq Require Import ZifyBool ZifyNat.
Import ListNotations.
From Flocq Require Import Core BinarySingleNaN Binary Bits.
From Verif Require Import Outcome Bytes Float64 Float64_Proofs Classif_Model Schema_Model Schema_Spec Schema_Proofs Header_Model Point_Model Point_Spec Point_Api Point_Proofs Point_Hist
  Coord_Api Coord_Proofs Coord_Header Stream_Model IO_Spec IO_Samples Reader_Proofs Reader_Model Reader_Spec Reader_Schema Reader_Api Reader_Open Reader_Hist Rewrite_Proofs Prop_Rewrite Prop_Reader Writer_Api
  Summary_Model Summary_Spec Summary_Proofs Prop_Summary Text_Model Text_Proofs Las2las_Spec Las2las_Model Las2las_Summary Las2las_Points Las2las_Main Las2las_Loop Las2las_Split Prop_Las2las
  Cols_Spec Cols_Proofs Prop_Cols Txt_Model Txt_Spec Txt_Prec Txt_Proofs Prop_Txt Lasinfo_Spec Lasinfo_Model Lasinfo_Proofs Lasinfo_Main Prop_Lasinfo.
Local Open Scope string_scope.
Local Open Scope list_scope.
Local Open Scope Z_scope.
Local Notation length := List.length (only parsing).

(** The digits behind the point of the coordinates: those of the scales of the file,
    read from their text with 16 digits. *)
Definition digits_of (lg : f64 -> f64) (F : list Z) (pr : axis -> nat) : Prop :=
  forall ax, exists sc p, text16 (file_scale F ax) = Ok sc /\ stream_precision lg sc = Ok p /\ pr ax = Z.to_nat p.
Definition good_time (F : list Z) (rec : list Z) : Prop :=
  f64_fin (real_of F "t"%char rec) = true /\ (Rabs (f64_R (real_of F "t"%char rec)) <= bpow radix2 999)%R.

Lemma names_same (l : list (Z * Z)) : (forall e, In e l -> 0 <= fst e < 32) ->
  flat_map (fun e : Z * Z => [tab] ++ int_text (snd e) ++ s " " ++ s (nth (Z.to_nat (fst e)) class_names "") ++ s " (" ++ int_text (fst e) ++ s ") " ++ [newline]) l =
  ends (map (fun e : Z * Z => tab1 ++ int_text (snd e) ++ lit " " ++ lit (class_name (fst e)) ++ lit " (" ++ int_text (fst e) ++ lit ") ") l).
Proof.
  induction l as [|e l IH]; intros H; [reflexivity|]. cbn [flat_map map ends]. rewrite IH by (intros; apply H; now right). rewrite class_name_ok by (apply H; now left).
  unfold ends. rewrite <- !app_assoc. reflexivity.
Qed.
Lemma tallied_in ids vs e : In e (tallied ids vs) -> In (fst e) ids.
Proof. unfold tallied. intros H. apply filter_In in H. destruct H as (H & _). apply in_map_iff in H. destruct H as (i & <- & I). exact I. Qed.
Lemma ends_app a b : ends (a ++ b) = ends a ++ ends b.
Proof. apply flat_map_app. Qed.

Section Layout.
Variables (r : report) (h : header) (x0 y0 z0 x1 y1 z1 t0 t1 : list ascii) (a b : ptree_of_point) (g : figures).
Lemma layout_text :
  g_header g = h_npts h -> g_count g = k_count r -> g_returns g = k_returns r -> g_pulses g = k_pulses r -> g_classes g = k_classes r ->
  g_withheld g = k_withheld r -> g_keypoint g = k_keypoint r -> g_synthetic g = k_synthetic r ->
  (forall e, In e (k_classes r) -> 0 <= fst e < 32) ->
  (g_lo g "r"%char = t_return a /\ g_hi g "r"%char = t_return b) -> (g_lo g "n"%char = t_returns a /\ g_hi g "n"%char = t_returns b) ->
  (g_lo g "e"%char = t_edge a /\ g_hi g "e"%char = t_edge b) -> (g_lo g "i"%char = t_intensity a /\ g_hi g "i"%char = t_intensity b) ->
  (g_lo g "d"%char = t_dir a /\ g_hi g "d"%char = t_dir b) -> (g_lo g "a"%char = t_angle a /\ g_hi g "a"%char = t_angle b) ->
  (g_lo g "c"%char = class_get (t_class a) /\ g_hi g "c"%char = class_get (t_class b)) -> (g_lo g "p"%char = t_source a /\ g_hi g "p"%char = t_source b) ->
  (g_lo g "u"%char = t_user a /\ g_hi g "u"%char = t_user b) -> (g_lo g "R"%char = t_red a /\ g_hi g "R"%char = t_red b) ->
  (g_lo g "G"%char = t_green a /\ g_hi g "G"%char = t_green b) -> (g_lo g "B"%char = t_blue a /\ g_hi g "B"%char = t_blue b) ->
  (g_rlo g "x"%char = x0 /\ g_rhi g "x"%char = x1) -> (g_rlo g "y"%char = y0 /\ g_rhi g "y"%char = y1) -> (g_rlo g "z"%char = z0 /\ g_rhi g "z"%char = z1) ->
  (g_rlo g "t"%char = t0 /\ g_rhi g "t"%char = t1) ->
  let head := dashes ++ s "  Point Inspection Summary" ++ [newline] ++ dashes in
  let two (f : ptree_of_point -> Z) := int_text (f a) ++ s ", " ++ int_text (f b) ++ [newline] in
  let counts := flat_map (fun e : Z * Z => [tab] ++ s "(" ++ int_text (fst e) ++ s ") " ++ int_text (snd e)) in
  (head
    ++ s "  Header Point Count: " ++ int_text (h_npts h) ++ [newline]
    ++ s "  Actual Point Count: " ++ int_text (k_count r) ++ [newline]
    ++ [newline]
    ++ s "  Minimum and Maximum Attributes (min,max)" ++ [newline]
    ++ dashes
    ++ s "  Min X, Y, Z: " ++ tabs 2 ++ x0 ++ s ", " ++ y0 ++ s ", " ++ z0 ++ [newline]
    ++ s "  Max X, Y, Z: " ++ tabs 2 ++ x1 ++ s ", " ++ y1 ++ s ", " ++ z1 ++ [newline]
    ++ s "  Bounding Box:" ++ tabs 2 ++ x0 ++ s ", " ++ y0 ++ s ", " ++ x1 ++ s ", " ++ y1 ++ [newline]
    ++ s "  Time:" ++ tabs 3 ++ t0 ++ s ", " ++ t1 ++ [newline]
    ++ s "  Return Number:" ++ tabs 1 ++ two t_return
    ++ s "  Return Count:" ++ tabs 2 ++ two t_returns
    ++ s "  Flightline Edge:" ++ tabs 1 ++ two t_edge
    ++ s "  Intensity:" ++ tabs 2 ++ two t_intensity
    ++ s "  Scan Direction Flag:" ++ tabs 1 ++ two t_dir
    ++ s "  Scan Angle Rank:" ++ tabs 1 ++ two t_angle
    ++ s "  Classification:" ++ tabs 1 ++ two (fun p => class_get (t_class p))
    ++ s "  Point Source Id:" ++ tabs 1 ++ two t_source
    ++ s "  User Data:" ++ tabs 2 ++ two t_user
    ++ s "  Minimum Color (RGB):" ++ tabs 1 ++ int_text (t_red a) ++ s " " ++ int_text (t_green a) ++ s " " ++ int_text (t_blue a) ++ s " " ++ [newline]
    ++ s "  Maximum Color (RGB):" ++ tabs 1 ++ int_text (t_red b) ++ s " " ++ int_text (t_green b) ++ s " " ++ int_text (t_blue b) ++ s " " ++ [newline]
    ++ [newline]
    ++ s "  Number of Points by Return" ++ [newline] ++ dashes ++ counts (k_returns r) ++ [newline]
    ++ [newline]
    ++ s "  Number of Returns by Pulse" ++ [newline] ++ dashes ++ counts (k_pulses r) ++ [newline]
    ++ [newline]
    ++ s "  Point Classifications" ++ [newline] ++ dashes
    ++ flat_map (fun e : Z * Z => [tab] ++ int_text (snd e) ++ s " " ++ s (nth (Z.to_nat (fst e)) class_names "") ++ s " (" ++ int_text (fst e) ++ s ") " ++ [newline]) (k_classes r)
    ++ dashes2
    ++ s "  " ++ [tab] ++ int_text (k_withheld r) ++ s " withheld" ++ [newline]
    ++ s "  " ++ [tab] ++ int_text (k_keypoint r) ++ s " keypoint" ++ [newline]
    ++ s "  " ++ [tab] ++ int_text (k_synthetic r) ++ s " synthetic" ++ [newline]
    ++ dashes2) ++ [newline] = ends (summary_layout int_text g).
Proof.
  intros E1 E2 E3 E4 E5 E6 E7 E8 CN (A1 & B1) (A2 & B2) (A3 & B3) (A4 & B4) (A5 & B5) (A6 & B6) (A7 & B7) (A8 & B8) (A9 & B9) (A10 & B10) (A11 & B11) (A12 & B12) (X0 & X1) (Y0 & Y1) (Z0 & Z1) (T0 & T1).
  cbv zeta. rewrite (names_same _ CN). unfold summary_layout. cbv beta zeta. rewrite E1, E2, E3, E4, E5, E6, E7, E8, A1, B1, A2, B2, A3, B3, A4, B4, A5, B5, A6, B6, A7, B7, A8, B8, A9, B9, A10, B10, A11, B11, A12, B12, X0, X1, Y0, Y1, Z0, Z1, T0, T1.
  rewrite !ends_app. cbn [ends flat_map]. unfold ends at 1. rewrite !app_nil_r.
  unfold dashes, dashes2, rule, rule2, tabs, s, tab1, lit, of_string. cbn [repeat]. unfold tab, newline.
  rewrite <- !app_assoc. reflexivity.
Qed.
End Layout.

Definition get_real {A} (o : outcome A) (d : A) : A := match o with Ok x => x | _ => d end.
(** The numbers the summary prints *)
Definition the_figures (F : list Z) (ds : list (list Z)) (pr : axis -> nat) (dmn dmx : list Z) : figures :=
  let real c d := get_real (real text16 (places pr c) (real_of F c d)) [] in
  mkFig (u_at F 107 4) (Z.of_nat (length ds)) (fun c => whole_of F c dmn) (fun c => whole_of F c dmx) (fun c => real c dmn) (fun c => real c dmx)
    (if forallb (fun d => whole_of F "r"%char d =? 0) ds then [(1, Z.of_nat (length ds))] else tallied (upto 1 8) (map (whole_of F "r"%char) ds))
    (tallied (upto 0 8) (map (whole_of F "n"%char) ds)) (tallied (upto 0 32) (map (whole_of F "c"%char) ds))
    (number_of (class_flag F 7) ds) (number_of (class_flag F 6) ds) (number_of (class_flag F 5) ds).

(** The printed text, if a reader of the header destroyed (see below) still finds the
    values it had. *)
Theorem C76_summary_partial : forall lg t F keep fuel pr,
  real_tool t -> translatable F -> filterable F keep -> (Z.to_nat (f_npts F) < fuel)%nat -> digits_of lg F pr ->
  exists r, reader_open (t_xml t) (t_doy t) (t_year t) F = Ok r /\ let ds := delivered F (r_hdr r) keep in
    (ds <> [] -> Forall (good_time F) ds ->
     exists dec g, (forall z, number (dec z) = Some (z, O)) /\ figures_of F ds pr g /\
       lasinfo true lg t (the_filter keep) tt fuel F = Ok (ends (summary_layout dec g))).
Proof.
  intros lg t F keep fuel pr TT HT HK Hf DG. destruct (delivers t F keep fuel HT HK Hf) as (r & r1 & E & RA & HP & Sh & OF & RO).
  exists r. split; [exact E|]. cbv zeta. set (h := r_hdr r) in *. set (ds := delivered F h keep) in *. intros NE GT.
  destruct (header_new_facts (t_doy t) (t_year t)) as (h0 & E0 & _). destruct HT as (_ & _ & _ & SS).
  destruct (summary_known F h h0 ds HP Sh SS OF RO NE) as (u & rep & dmn & dmx & EF & ER & EC & UH & UB & K1 & K2 & Omn & Omx & (XW & XC & XT) & KC & KR & KP & KCl & KW & KK & KS).
  pose proof (file_shows F h Sh) as SH.
  assert (Sc : forall ax, scale_of ax h = file_scale F ax) by (intros ax; apply SH).
  exists int_text, (the_figures F ds pr dmn dmx). split; [intros z; apply int_number|].
  assert (RX : forall c d, In c (lit "xyzt") -> (d = dmn \/ d = dmx) -> exists tx, real text16 (places pr c) (real_of F c d) = Ok tx /\ shows_real (places pr c) (real_of F c d) tx).
  { intros c d Hc Hd. apply real_shown.
    - assert (Od : of_file F h d) by (destruct Hd; subst d; assumption). assert (Td : In (real_of F "t"%char d) (map (real_of F "t"%char) ds)) by (destruct Hd; subst d; apply XT).
      apply in_map_iff in Td. destruct Td as (d' & E' & I'). rewrite Forall_forall in GT. destruct (GT d' I') as (G1 & G2). rewrite E' in G1, G2.
      cbn [lit list_ascii_of_string In] in Hc. destruct Hc as [<- | [<- | [<- | [<- | [] ]]]]; [apply (coordinate_fin F h SS d AxX Od)|apply (coordinate_fin F h SS d AxY Od)|apply (coordinate_fin F h SS d AxZ Od)|exact G1].
    - assert (Od : of_file F h d) by (destruct Hd; subst d; assumption). assert (Td : In (real_of F "t"%char d) (map (real_of F "t"%char) ds)) by (destruct Hd; subst d; apply XT).
      apply in_map_iff in Td. destruct Td as (d' & E' & I'). rewrite Forall_forall in GT. destruct (GT d' I') as (G1 & G2). rewrite E' in G1, G2.
      cbn [lit list_ascii_of_string In] in Hc. destruct Hc as [<- | [<- | [<- | [<- | [] ]]]]; [apply (coordinate_fin F h SS d AxX Od)|apply (coordinate_fin F h SS d AxY Od)|apply (coordinate_fin F h SS d AxZ Od)|exact G2]. }
  assert (RG : forall c d, In c (lit "xyzt") -> (d = dmn \/ d = dmx) -> exists tx, real text16 (places pr c) (real_of F c d) = Ok tx /\ get_real (real text16 (places pr c) (real_of F c d)) [] = tx).
  { intros c d Hc Hd. destruct (RX c d Hc Hd) as (tx & E1 & _). exists tx. rewrite E1. auto. }
  split.
  - unfold figures_of, the_figures. cbn [g_header g_count g_lo g_hi g_rlo g_rhi g_returns g_pulses g_classes g_withheld g_keypoint g_synthetic].
    split; [reflexivity|]. split; [reflexivity|]. split; [exact XW|]. split; [|do 5 (split; [reflexivity|]); reflexivity].
    intros c Hc. exists (real_of F c dmn), (real_of F c dmx).
    destruct (RX c dmn Hc (or_introl eq_refl)) as (tx & E1 & S1). destruct (RX c dmx Hc (or_intror eq_refl)) as (ty & E2 & S2). rewrite E1, E2. cbn [get_real].
    assert (LG : least_f (map (real_of F c) ds) (real_of F c dmn) /\ greatest_f (map (real_of F c) ds) (real_of F c dmx)).
    { cbn [lit list_ascii_of_string In] in Hc. destruct Hc as [<- | [<- | [<- | [<- | [] ]]]]; [exact (XC AxX)|exact (XC AxY)|exact (XC AxZ)|exact XT]. }
    split; [apply LG|]. split; [apply LG|]. auto.
  - unfold lasinfo. rewrite E. cbn [obind]. rewrite E0. cbn [obind]. unfold so_new. rewrite (check_feeds _ _ _ _ _ _ _ _ _ _ RA). fold h. fold ds. rewrite EF. cbn [obind].
    unfold so_assign. cbn [s_sum s_points]. rewrite EC. cbn [obind]. unfold so_text. cbn [orb s_sum s_points]. rewrite TT.
    unfold summary_text. rewrite ER. cbn [obind]. rewrite K1, K2, (tree_value F h dmn Omn), (tree_value F h dmx Omx). cbn [obind]. rewrite KC.
    assert (NZ : (Z.of_nat (length ds) =? 0) = false) by (destruct ds; [congruence|cbn [length]; lia]). rewrite NZ, UB, UH. cbn [negb].
    destruct (h_scale h) as [[sx sy] sz] eqn:HS.
    assert (S3 : sx = file_scale F AxX /\ sy = file_scale F AxY /\ sz = file_scale F AxZ).
    { pose proof (Sc AxX) as A. pose proof (Sc AxY) as B. pose proof (Sc AxZ) as C. unfold scale_of in A, B, C. rewrite HS in A, B, C. cbn in A, B, C. auto. }
    destruct S3 as (-> & -> & ->). destruct (DG AxX) as (qx & px & X1 & X2 & X3). destruct (DG AxY) as (qy & py & Y1 & Y2 & Y3). destruct (DG AxZ) as (qz & pz & Z1 & Z2 & Z3).
    rewrite X1, Y1, Z1. cbn [obind]. rewrite X2, Y2, Z2. cbn [obind]. rewrite <- X3, <- Y3, <- Z3.
    cbn [record_tree t_x t_y t_z t_time].
    destruct (RG "x"%char dmn ltac:(cbn; auto) (or_introl eq_refl)) as (x0 & EX0 & GX0). destruct (RG "x"%char dmx ltac:(cbn; auto) (or_intror eq_refl)) as (x1 & EX1 & GX1).
    destruct (RG "y"%char dmn ltac:(cbn; auto) (or_introl eq_refl)) as (y0 & EY0 & GY0). destruct (RG "y"%char dmx ltac:(cbn; auto) (or_intror eq_refl)) as (y1 & EY1 & GY1).
    destruct (RG "z"%char dmn ltac:(cbn; auto) (or_introl eq_refl)) as (z0 & EZ0 & GZ0). destruct (RG "z"%char dmx ltac:(cbn; auto) (or_intror eq_refl)) as (z1 & EZ1 & GZ1).
    destruct (RG "t"%char dmn ltac:(cbn; auto) (or_introl eq_refl)) as (t0 & ET0 & GT0). destruct (RG "t"%char dmx ltac:(cbn; auto) (or_intror eq_refl)) as (t1 & ET1 & GT1).
    cbn [places] in EX0, EX1, EY0, EY1, EZ0, EZ1, ET0, ET1. unfold real_of in EX0, EX1, EY0, EY1, EZ0, EZ1, ET0, ET1. cbn [real_letter] in EX0, EX1, EY0, EY1, EZ0, EZ1, ET0, ET1.
    unfold record_tree, real_of. cbv beta zeta. cbn [real_letter t_x t_y t_z t_time].
    rewrite EX0, EX1, EY0, EY1, EZ0, EZ1, ET0, ET1. cbn [obind]. rewrite <- KC. f_equal.
    apply layout_text; unfold the_figures; cbn [g_header g_count g_lo g_hi g_rlo g_rhi g_returns g_pulses g_classes g_withheld g_keypoint g_synthetic record_tree
      t_return t_returns t_edge t_intensity t_dir t_angle t_class t_source t_user t_red t_green t_blue t_x t_y t_z t_time].
    1: { symmetry. exact (shows_npts F h Sh). }
    1-7: symmetry; assumption.
    1: { intros e I. rewrite KCl in I. apply tallied_in in I. unfold upto in I. apply in_map_iff in I. destruct I as (k & <- & I). apply in_seq in I. lia. }
    1-6: split; reflexivity.
    1: { rewrite !class_get_mod. split; reflexivity. }
    1-5: split; reflexivity.
    1: { unfold real_of. cbn [real_letter places]. rewrite EX0, EX1. split; reflexivity. }
    1: { unfold real_of. cbn [real_letter places]. rewrite EY0, EY1. split; reflexivity. }
    1: { unfold real_of. cbn [real_letter places]. rewrite EZ0, EZ1. split; reflexivity. }
    unfold real_of. cbn [real_letter places]. rewrite ET0, ET1. split; reflexivity.
Qed.

(** Which digits these are, for scales up to a half *)
Theorem C76_digits : forall lg F, log10_ok lg -> sane_scaling F -> (forall ax, (f64_R (file_scale F ax) <= / 2)%R) ->
  exists pr, digits_of lg F pr /\ forall ax, exists v,
    (Rabs (v - f64_R (file_scale F ax)) <= / 1000000000000000 * f64_R (file_scale F ax) + bpow radix2 (-1075) /\
     - INR (pr ax) <= ln v / ln 10 + / 2 ^ 40 /\ ln v / ln 10 - / 2 ^ 40 < 1 - INR (pr ax))%R.
Proof.
  intros lg F LG SS H.
  assert (X : forall ax, exists p v sc, text16 (file_scale F ax) = Ok sc /\ stream_precision lg sc = Ok (Z.of_nat p) /\
    (Rabs (v - f64_R (file_scale F ax)) <= / 1000000000000000 * f64_R (file_scale F ax) + bpow radix2 (-1075) /\ - INR p <= ln v / ln 10 + / 2 ^ 40 /\ ln v / ln 10 - / 2 ^ 40 < 1 - INR p)%R).
  { intros ax. destruct (scaling_ax F SS ax) as ((Fi & Lo & Hi) & P & _). apply f64_lt_R in P; [|reflexivity|exact Fi]. change (f64_R f64_zero) with 0%R in P.
    specialize (H ax). set (x := f64_R (file_scale F ax)) in *. rewrite Rabs_pos_eq in Lo, Hi by lra.
    destruct (text16_close (file_scale F ax) Fi) as (sc & E & Fs & C).
    { fold x. rewrite Rabs_pos_eq by lra. eapply Rle_trans; [exact Hi|apply bpow_le; lia]. }
    fold x in C. rewrite (Rabs_pos_eq x) in C by lra.
    assert (T : (bpow radix2 (-1075) <= / 4 * bpow radix2 (-900))%R). { change (/ 4)%R with (bpow radix2 (-2)). rewrite <- bpow_plus. apply bpow_le. lia. }
    assert (T2 : (bpow radix2 (-900) <= 1)%R) by (change 1%R with (bpow radix2 0); apply bpow_le; lia).
    pose proof (Rabs_le_inv _ _ C) as C'. assert (B : (0 < f64_R sc < 1)%R) by (pose proof (bpow_gt_0 radix2 (-900)); lra).
    destruct (precision_of lg sc LG Fs B) as (p & E1 & A1 & A2). exists p, (f64_R sc), sc. split; [exact E|]. split; [exact E1|]. split; [exact C|]. split; assumption. }
  destruct (X AxX) as (px & vx & sx & X1 & X2 & X3). destruct (X AxY) as (py & vy & sy & Y1 & Y2 & Y3). destruct (X AxZ) as (pz & vz & sz & Z1 & Z2 & Z3).
  exists (fun ax => match ax with AxX => px | AxY => py | AxZ => pz end). split.
  - intros []; eexists _, _; (split; [eassumption|]); (split; [eassumption|]); now rewrite Nat2Z.id.
  - intros []; eexists; eassumption.
Qed.

(** ** The header of the summary's points *)
(** Every inspection asks points for values through the address of a header that no
    longer exists: the header of the summary that check_points returned. *)
Theorem C76_dangling_refuted : forall lg t F keep fuel,
  translatable F -> filterable F keep -> (Z.to_nat (f_npts F) < fuel)%nat ->
  lasinfo false lg t (the_filter keep) tt fuel F = UB UBUninit.
Proof.
  intros lg t F keep fuel HT HK Hf. destruct (delivers t F keep fuel HT HK Hf) as (r & r1 & E & RA & HP & Sh & OF & RO).
  destruct (header_new_facts (t_doy t) (t_year t)) as (h0 & E0 & _). destruct HT as (_ & _ & _ & SS).
  unfold lasinfo. rewrite E. cbn [obind]. rewrite E0. cbn [obind]. unfold so_new. rewrite (check_feeds _ _ _ _ _ _ _ _ _ _ RA).
  destruct (delivered F (r_hdr r) keep) as [|d l] eqn:D.
  - reflexivity.
  - destruct (summary_known F (r_hdr r) h0 (d :: l) HP Sh SS OF RO ltac:(discriminate)) as (u & rep & dmn & dmx & EF & _ & EC & _).
    rewrite EF. cbn [obind]. unfold so_assign. cbn [s_sum s_points]. rewrite EC. reflexivity.
Qed.

(** No points delivered *)
Theorem C76_empty : forall lg t F keep fuel,
  translatable F -> filterable F keep -> (Z.to_nat (f_npts F) < fuel)%nat ->
  exists r, reader_open (t_xml t) (t_doy t) (t_year t) F = Ok r /\
    (delivered F (r_hdr r) keep = [] ->
     lasinfo true lg t (the_filter keep) tt fuel F = Ok (ends [rule; lit "  Point Inspection Summary"; rule; lit "  File has no points ..."])).
Proof.
  intros lg t F keep fuel HT HK Hf. destruct (delivers t F keep fuel HT HK Hf) as (r & r1 & E & RA & HP & Sh & OF & RO).
  destruct (header_new_facts (t_doy t) (t_year t)) as (h0 & E0 & _). exists r. split; [exact E|]. intros D. rewrite D in *.
  unfold lasinfo. rewrite E. cbn [obind]. rewrite E0. cbn [obind]. unfold so_new. rewrite (check_feeds _ _ _ _ _ _ _ _ _ _ RA).
  assert (OP : of_file F (r_hdr r) (p_data (point_new (r_hdr r)))).
  { split; [|now apply file_shows]. pose proof (shows_reclen F (r_hdr r) Sh) as X.
    apply (file_point F (r_hdr r) _ HP Sh).
    - unfold point_new. cbn [p_data]. apply Forall_forall. intros b Hb. apply repeat_spec in Hb. subst b. unfold is_byte. lia.
    - unfold point_new. cbn [p_data]. rewrite repeat_length. rewrite X. destruct HP as ((HB & _) & _). destruct (fields_nonneg F HB) as (_ & _ & L). lia. }
  pose proof (tree_value F (r_hdr r) _ OP) as TV. 
  assert (PN : mkPoint (p_data (point_new (r_hdr r))) (r_hdr r) = point_new (r_hdr r)) by reflexivity. rewrite PN in TV.
  cbn [points_of map summary_feed obind]. unfold so_assign. cbn [s_sum s_points]. unfold summary_copy, summary_set_header, summary_new. cbn [u_min u_max u_first u_count u_returns u_pulses u_classes obind].
  unfold so_text. cbn [orb s_sum s_points]. unfold summary_text, summary_report. cbn [u_min u_max u_classes u_withheld u_keypoint u_synthetic u_returns u_count u_pulses repeat nonzero_from Z.eqb obind k_min k_max k_count].
  rewrite TV. cbn [obind]. unfold ends. cbn [flat_map]. rewrite !app_nil_r. unfold dashes, rule, s, lit, of_string. rewrite <- !app_assoc. reflexivity.
Qed.

(** ** What goes wrong *)
(** If no delivered record has a time that is a number, the text of the property tree
    cannot be read back. *)
Lemma text16_not_finite x : f64_fin x = false -> text16 x = Throw ERuntime.
Proof. destruct x as [sg|sg|sg pl e|sg m e B]; intros H; try discriminate H; reflexivity. Qed.
Theorem C76_bad_time_refuted : forall lg t F keep fuel pr,
  real_tool t -> translatable F -> filterable F keep -> (Z.to_nat (f_npts F) < fuel)%nat -> digits_of lg F pr ->
  exists r, reader_open (t_xml t) (t_doy t) (t_year t) F = Ok r /\ let ds := delivered F (r_hdr r) keep in
    (ds <> [] -> (forall d, In d ds -> f64_fin (real_of F "t"%char d) = false) ->
     lasinfo true lg t (the_filter keep) tt fuel F = Throw ERuntime).
Proof.
  intros lg t F keep fuel pr TT HT HK Hf DG. destruct (delivers t F keep fuel HT HK Hf) as (r & r1 & E & RA & HP & Sh & OF & RO).
  exists r. split; [exact E|]. cbv zeta. set (h := r_hdr r) in *. set (ds := delivered F h keep) in *. intros NE GT.
  destruct (header_new_facts (t_doy t) (t_year t)) as (h0 & E0 & _). destruct HT as (_ & _ & _ & SS).
  destruct (summary_known F h h0 ds HP Sh SS OF RO NE) as (u & rep & dmn & dmx & EF & ER & EC & UH & UB & K1 & K2 & Omn & Omx & (XW & XC & XT) & KC & KR & KP & KCl & KW & KK & KS).
  pose proof (file_shows F h Sh) as SH.
  assert (Sc : forall ax, scale_of ax h = file_scale F ax) by (intros ax; apply SH).
  unfold lasinfo. rewrite E. cbn [obind]. rewrite E0. cbn [obind]. unfold so_new. rewrite (check_feeds _ _ _ _ _ _ _ _ _ _ RA). fold h. fold ds. rewrite EF. cbn [obind].
  unfold so_assign. cbn [s_sum s_points]. rewrite EC. cbn [obind]. unfold so_text. cbn [orb s_sum s_points]. rewrite TT.
  unfold summary_text. rewrite ER. cbn [obind]. rewrite K1, K2, (tree_value F h dmn Omn), (tree_value F h dmx Omx). cbn [obind]. rewrite KC.
  assert (NZ : (Z.of_nat (length ds) =? 0) = false) by (destruct ds; [congruence|cbn [length]; lia]). rewrite NZ, UB, UH. cbn [negb].
  destruct (h_scale h) as [[sx sy] sz] eqn:HS.
  assert (S3 : sx = file_scale F AxX /\ sy = file_scale F AxY /\ sz = file_scale F AxZ).
  { pose proof (Sc AxX) as A. pose proof (Sc AxY) as B. pose proof (Sc AxZ) as C. unfold scale_of in A, B, C. rewrite HS in A, B, C. cbn in A, B, C. auto. }
  destruct S3 as (-> & -> & ->). destruct (DG AxX) as (qx & px & X1 & X2 & X3). destruct (DG AxY) as (qy & py & Y1 & Y2 & Y3). destruct (DG AxZ) as (qz & pz & Z1 & Z2 & Z3).
  rewrite X1, Y1, Z1. cbn [obind]. rewrite X2, Y2, Z2. cbn [obind].
  assert (RX : forall ax p d, (d = dmn \/ d = dmx) -> exists tx, real text16 p (coordinate F ax d) = Ok tx).
  { intros ax p d Hd. assert (Od : of_file F h d) by (destruct Hd; subst d; assumption). destruct (coordinate_fin F h SS d ax Od) as (A & B). destruct (real_shown p _ A B) as (tx & Q & _). eauto. }
  unfold record_tree, real_of. cbv beta zeta. cbn [real_letter t_x t_y t_z t_time].
  destruct (RX AxX (Z.to_nat px) dmn (or_introl eq_refl)) as (x0 & ->). destruct (RX AxY (Z.to_nat py) dmn (or_introl eq_refl)) as (y0 & ->). destruct (RX AxZ (Z.to_nat pz) dmn (or_introl eq_refl)) as (z0 & ->).
  destruct (RX AxX (Z.to_nat px) dmx (or_intror eq_refl)) as (x1 & ->). destruct (RX AxY (Z.to_nat py) dmx (or_intror eq_refl)) as (y1 & ->). destruct (RX AxZ (Z.to_nat pz) dmx (or_intror eq_refl)) as (z1 & ->).
  cbn [obind]. destruct XT as ((TI & _) & _). apply in_map_iff in TI. destruct TI as (d & ED & ID). pose proof (GT d ID) as GD. rewrite ED in GD. unfold real_of in GD. cbn [real_letter] in GD.
  unfold real at 1. rewrite (text16_not_finite _ GD). reflexivity.
Qed.

(** A scale that is a whole number: the cast of minus infinity is undefined. *)
Lemma text16_whole x k : f64_fin x = true -> f64_R x = IZR k -> Z.abs k < 10 ^ 15 -> exists y, text16 x = Ok y /\ f64_fin y = true /\ f64_R y = IZR k.
Proof.
  intros Fx Ex Hk. assert (B : (Rabs (IZR k) <= bpow radix2 999)%R).
  { rewrite <- abs_IZR. apply Rle_trans with (bpow radix2 50); [|apply bpow_le; lia]. change (bpow radix2 50) with (IZR 1125899906842624). apply IZR_le. lia. }
  destruct (text16_R x Fx ltac:(now rewrite Ex)) as (y & E & Fy & R). exists y. split; [exact E|]. split; [exact Fy|]. rewrite R, Ex.
  assert (D : dec16 (IZR k) = IZR k).
  { unfold dec16. apply round_generic; [typeclasses eauto|]. apply generic_format_FLX. apply FLX_spec with (Float radix10 k 0); [unfold F2R; cbn; ring|]. cbn [Fnum]. change (Zpower radix10 16) with (10 ^ 16). lia. }
  rewrite D, <- Ex. now apply rnd64_self.
Qed.
Theorem C76_whole_scale_refuted : forall lg t F keep fuel k,
  real_tool t -> translatable F -> filterable F keep -> (Z.to_nat (f_npts F) < fuel)%nat -> log10_ok lg ->
  f64_R (file_scale F AxX) = IZR k -> Z.abs k < 10 ^ 15 ->
  exists r, reader_open (t_xml t) (t_doy t) (t_year t) F = Ok r /\
    (delivered F (r_hdr r) keep <> [] -> lasinfo true lg t (the_filter keep) tt fuel F = UB UBFloatToInt).
Proof.
  intros lg t F keep fuel k TT HT HK Hf LG Ek Bk. destruct (delivers t F keep fuel HT HK Hf) as (r & r1 & E & RA & HP & Sh & OF & RO).
  exists r. split; [exact E|]. set (h := r_hdr r) in *. set (ds := delivered F h keep) in *. intros NE.
  destruct (header_new_facts (t_doy t) (t_year t)) as (h0 & E0 & _). destruct HT as (_ & _ & _ & SS).
  destruct (summary_known F h h0 ds HP Sh SS OF RO NE) as (u & rep & dmn & dmx & EF & ER & EC & UH & UB & K1 & K2 & Omn & Omx & _ & KC & _).
  pose proof (file_shows F h Sh) as SH.
  assert (Sc : forall ax, scale_of ax h = file_scale F ax) by (intros ax; apply SH).
  unfold lasinfo. rewrite E. cbn [obind]. rewrite E0. cbn [obind]. unfold so_new. rewrite (check_feeds _ _ _ _ _ _ _ _ _ _ RA). fold h. fold ds. rewrite EF. cbn [obind].
  unfold so_assign. cbn [s_sum s_points]. rewrite EC. cbn [obind]. unfold so_text. cbn [orb s_sum s_points]. rewrite TT.
  unfold summary_text. rewrite ER. cbn [obind]. rewrite K1, K2, (tree_value F h dmn Omn), (tree_value F h dmx Omx). cbn [obind]. rewrite KC.
  assert (NZ : (Z.of_nat (length ds) =? 0) = false) by (destruct ds; [congruence|cbn [length]; lia]). rewrite NZ, UB, UH. cbn [negb].
  destruct (h_scale h) as [[sx sy] sz] eqn:HS.
  assert (S3 : sx = file_scale F AxX /\ sy = file_scale F AxY /\ sz = file_scale F AxZ).
  { pose proof (Sc AxX) as A. pose proof (Sc AxY) as B. pose proof (Sc AxZ) as C. unfold scale_of in A, B, C. rewrite HS in A, B, C. cbn in A, B, C. auto. }
  destruct S3 as (-> & -> & ->).
  assert (OKS : forall ax, exists y, text16 (file_scale F ax) = Ok y).
  { intros ax. destruct (scaling_ax F SS ax) as ((Fi & _ & Hi) & _). destruct (text16_close _ Fi) as (y & Q & _); [|eauto]. eapply Rle_trans; [exact Hi|apply bpow_le; lia]. }
  destruct (scaling_ax F SS AxX) as ((FX & _) & _). destruct (text16_whole _ k FX Ek Bk) as (sx & EX & FS & RS). rewrite EX.
  destruct (OKS AxY) as (? & ->). destruct (OKS AxZ) as (? & ->). cbn [obind].
  destruct (trunc_f64 sx FS) as (T1 & T2). rewrite RS, Ztrunc_IZR in T2. destruct (Coord_Proofs.sub_ok sx (f64_trunc sx) FS T1) as (S1 & S2).
  { rewrite T2, RS, Rminus_diag_eq by reflexivity. rewrite Rabs_R0. apply bpow_ge_0. }
  rewrite T2, RS, Rminus_diag_eq in S2 by reflexivity.
  assert (R0 : Bounds_Proofs.rnd64 0 = 0%R) by (unfold Bounds_Proofs.rnd64; apply round_0; typeclasses eauto). rewrite R0 in S2.
  unfold stream_precision at 1. destruct LG as (LZ & _). rewrite (LZ _ S1 S2). reflexivity.
Qed.

(** ** --point *)
Definition reals_shown (F : list Z) (rec : list Z) (rl : ascii -> list ascii) : Prop :=
  forall c, In c (lit "xyzt") -> shows_real 6 (real_of F c rec) (rl c).
Theorem C76_point : forall t F n, real_tool t -> standard F -> sane_scaling F -> 0 <= n < f_npts F -> good_time F (file_record F n) ->
  exists dec rl, (forall z, number (dec z) = Some (z, O)) /\ reals_shown F (file_record F n) rl /\
    lasinfo_point t n F = Ok (Some (ends (point_layout dec F (file_record F n) rl))).
Proof.
  intros t F n TT HS SS Hn (GF & GB). pose proof HS as ((HF & HN & HSc & HC) & HP).
  destruct (open_ok (t_xml t) (t_doy t) (t_year t) F HF HN) as (r & E & RI & _).
  destruct (at_exact F r n HF HC RI ltac:(lia)) as (r1 & EA & ED & _). assert (L : (n <? f_npts F) = true) by lia. rewrite L in EA, ED.
  assert (Sh : shows_file F (r_hdr r1)).
  { destruct (rop_inv (t_xml t) F r (RAt n) HF HN HSc HC) as (r2 & a & E2 & (Sh & _)); [cbn; lia|exact RI|]. cbn [rop_run] in E2. rewrite EA in E2. cbn in E2.
    apply (f_equal fst) in E2. cbn [fst] in E2. now subst r2. }
  set (rec := file_record F n) in *. assert (Od : of_file F (r_hdr r1) rec) by (apply (of_records F _ HS Sh), in_records; lia).
  assert (RX : forall c, In c (lit "xyzt") -> exists tx, real text16 6 (real_of F c rec) = Ok tx /\ shows_real 6 (real_of F c rec) tx).
  { intros c Hc. cbn [lit list_ascii_of_string In] in Hc.
    destruct Hc as [<- | [<- | [<- | [<- | [] ]]]]; apply real_shown; try assumption; [apply (coordinate_fin F _ SS rec AxX Od)|apply (coordinate_fin F _ SS rec AxX Od)|apply (coordinate_fin F _ SS rec AxY Od)|apply (coordinate_fin F _ SS rec AxY Od)|apply (coordinate_fin F _ SS rec AxZ Od)|apply (coordinate_fin F _ SS rec AxZ Od)]. }
  exists int_text, (fun c => get_real (real text16 6 (real_of F c rec)) []). split; [intros z; apply int_number|]. split.
  - intros c Hc. destruct (RX c Hc) as (tx & -> & Q). exact Q.
  - unfold lasinfo_point. rewrite E. cbn [obind]. rewrite EA. unfold point_text, r_point. rewrite ED, TT. rewrite (tree_value F _ rec Od). cbn [obind].
    destruct (RX "x"%char ltac:(cbn; auto)) as (x & EX & _). destruct (RX "y"%char ltac:(cbn; auto)) as (y & EY & _). destruct (RX "z"%char ltac:(cbn; auto)) as (z & EZ & _). destruct (RX "t"%char ltac:(cbn; auto)) as (tm & ET & _).
    unfold point_layout. cbv beta zeta. rewrite EX, EY, EZ, ET. cbn [get_real].
    unfold real_of in EX, EY, EZ, ET. cbn [real_letter] in EX, EY, EZ, ET. unfold record_tree, real_of. cbv beta zeta. cbn [real_letter t_x t_y t_z t_time]. rewrite EX, EY, EZ, ET. cbn [obind].
    cbn [t_return t_returns t_edge t_intensity t_dir t_angle t_class t_source t_user t_red t_green t_blue].
    do 2 f_equal. unfold class_is_withheld, class_is_keypoint, class_is_synthetic. change eWithheldBit with 7. change eKeyPointBit with 6. change eSyntheticBit with 5.
    assert (EC : class_get (field (fmt F) AClassification rec) = whole_of F "c"%char rec) by apply class_get_mod.
    assert (RC : 0 <= whole_of F "c"%char rec < 32) by (rewrite <- EC, class_get_mod; apply Z.mod_pos_bound; lia).
    rewrite EC, class_name_ok by exact RC.
    unfold ends. cbn [flat_map]. rewrite !app_nil_r. unfold dashes, rule, tabs, s, tab1, lit, of_string, yes_no, truth, class_flag. cbn [repeat]. unfold tab, newline, s, lit, of_string.
    rewrite <- !app_assoc. reflexivity.
Qed.
Theorem C76_point_absent : forall t F n, standard F -> f_npts F <= n -> lasinfo_point t n F = Ok None.
Proof.
  intros t F n HS Hn. pose proof HS as ((HF & HN & HSc & HC) & HP).
  destruct (open_ok (t_xml t) (t_doy t) (t_year t) F HF HN) as (r & E & RI & _). pose proof HF as (HB & _). destruct (fields_nonneg F HB) as (_ & N0 & _).
  destruct (at_exact F r n HF HC RI ltac:(lia)) as (r1 & EA & ED & _). assert (L : (n <? f_npts F) = false) by lia. rewrite L in EA, ED.
  unfold lasinfo_point. rewrite E. cbn [obind]. rewrite EA. reflexivity.
Qed.

(** ** Instances: two records of format 1 with scales of a tenth; the times are 1.0 and
    2.0, or NaN *)
Definition timed_file (tm1 tm2 : list Z) : list Z :=
  let f := raw_file 2 227 0 1 28 2 ([3; 0; 0; 0] ++ repeat 1 16 ++ tm1 ++ [4; 0; 0; 0] ++ repeat 2 16 ++ tm2) in
  let sc := [0x9A; 0x99; 0x99; 0x99; 0x99; 0x99; 0xB9; 0x3F] in firstn 131 f ++ sc ++ sc ++ sc ++ skipn 155 f.
Definition one_two : list Z := timed_file [0; 0; 0; 0; 0; 0; 0xF0; 0x3F] [0; 0; 0; 0; 0; 0; 0; 0x40].
Definition nans : list Z := timed_file [0; 0; 0; 0; 0; 0; 0xF8; 0x7F] [0; 0; 0; 0; 0; 0; 0xF8; 0x7F].
Lemma timed_scale F : In F [one_two; nans] -> forall ax, file_scale F ax = Text_Proofs.tenth.
Proof. intros [<-|[<-|[]]] []; unfold file_scale, Text_Proofs.tenth; f_equal. Qed.
Lemma timed_ok F : In F [one_two; nans] -> translatable F /\ filterable F None /\ f_npts F = 2.
Proof.
  intros H. split; [|split; [intros X; congruence|destruct H as [<-|[<-|[]]]; vm_compute; reflexivity]].
  split; [|split; [destruct H as [<-|[<-|[]]]; vm_compute; discriminate|split; [left; destruct H as [<-|[<-|[]]]; vm_compute; discriminate|]]].
  - destruct H as [<-|[<-|[]]];
    (split; [split; [apply las_fileb_ok; vm_compute; reflexivity|]; split; [apply no_schema_vlrb; vm_compute; reflexivity|];
           split; [repeat apply Forall_cons; try apply Forall_nil; vm_compute; reflexivity|];
           split; [vm_compute; reflexivity|intros _; vm_compute; discriminate]
          |split; [apply las_fileb_ok; vm_compute; reflexivity|]; split; [apply no_schema_vlrb; vm_compute; reflexivity|];
           split; [vm_compute; reflexivity|]; split; [vm_compute; apply Forall_nil|];
           split; [vm_compute; discriminate|split; vm_compute; reflexivity]]).
  - intros k Hk. cbv zeta.
    assert (B : u_at F (131 + 8 * k) 8 = 0x3FB999999999999A /\ u_at F (155 + 8 * k) 8 = 0).
    { destruct H as [<-|[<-|[]]]; (destruct k as [|[|[|]]]; [split; vm_compute; reflexivity|split; vm_compute; reflexivity|split; vm_compute; reflexivity|lia]). }
    destruct B as (-> & ->). destruct tenth_ok as (T1 & T2). split; [exact T1|]. split; [exact T2|exact zero_offset].
Qed.
Lemma tenth_half : (f64_R Text_Proofs.tenth <= / 2)%R.
Proof.
  assert (A : Text_Proofs.tenth = B754_finite 53 1024 false 7205759403792794 (-56) eq_refl) by (apply B2FF_inj; vm_compute; reflexivity).
  rewrite A. unfold f64_R, B2R, F2R. cbn [Fnum Fexp cond_Zopp]. change (bpow radix2 (-56)) with (/ IZR (Z.pow_pos 2 56))%R. change (Z.pow_pos 2 56) with 72057594037927936. lra.
Qed.
Theorem C76_instance : exists lg t, log10_ok lg /\ real_tool t /\
  (translatable one_two /\ filterable one_two None /\ (exists pr, digits_of lg one_two pr) /\
   (forall h, exists a b, delivered one_two h None = [a; b] /\ good_time one_two a /\ good_time one_two b /\
      map (fun c => (whole_of one_two c a, whole_of one_two c b)) (lit "ir") = [(257, 514); (1, 2)])) /\
  (translatable nans /\ (exists pr, digits_of lg nans pr) /\
   (forall h, exists a b, delivered nans h None = [a; b] /\ f64_fin (real_of nans "t"%char a) = false /\ f64_fin (real_of nans "t"%char b) = false)) /\
  (translatable (gapped 2 0) /\ f64_R (file_scale (gapped 2 0) AxX) = 1%R /\ forall h, delivered (gapped 2 0) h None = [rec_of 7; rec_of 8; rec_of 9]) /\
  (filterable (gapped 2 0) (Some (fun _ => false)) /\ forall h, delivered (gapped 2 0) h (Some (fun _ => false)) = []).
Proof.
  destruct Prop_Txt.log10_exists as (lg & LG & _). exists lg, (mkTool no_sv (fun _ => Throw ERuntime) 1 2012 text16). split; [exact LG|]. split; [reflexivity|].
  assert (DG : forall F, In F [one_two; nans] -> exists pr, digits_of lg F pr).
  { intros F H. destruct (timed_ok F H) as ((_ & _ & _ & SS) & _). destruct (C76_digits lg F LG SS) as (pr & D & _); [|eauto]. intros ax. rewrite (timed_scale F H). exact tenth_half. }
  assert (GT : forall b, In b [0x3FF0000000000000; 0x4000000000000000] -> f64_fin (f64_of_bits b) = true /\ (Rabs (f64_R (f64_of_bits b)) <= bpow radix2 999)%R).
  { intros b [<-|[<-|[]]]; (split; [reflexivity|]).
    - replace (f64_of_bits 0x3FF0000000000000) with (B754_finite 53 1024 false 4503599627370496 (-52) eq_refl) by (apply B2FF_inj; vm_compute; reflexivity).
      unfold f64_R, B2R, F2R. cbn [Fnum Fexp cond_Zopp]. rewrite Rabs_pos_eq by (apply Rmult_le_pos; [apply IZR_le; lia|apply bpow_ge_0]).
      apply Rle_trans with (bpow radix2 53 * bpow radix2 (-52))%R; [apply Rmult_le_compat_r; [apply bpow_ge_0|change (bpow radix2 53) with (IZR 9007199254740992); apply IZR_le; lia]|rewrite <- bpow_plus; apply bpow_le; lia].
    - replace (f64_of_bits 0x4000000000000000) with (B754_finite 53 1024 false 4503599627370496 (-51) eq_refl) by (apply B2FF_inj; vm_compute; reflexivity).
      unfold f64_R, B2R, F2R. cbn [Fnum Fexp cond_Zopp]. rewrite Rabs_pos_eq by (apply Rmult_le_pos; [apply IZR_le; lia|apply bpow_ge_0]).
      apply Rle_trans with (bpow radix2 53 * bpow radix2 (-51))%R; [apply Rmult_le_compat_r; [apply bpow_ge_0|change (bpow radix2 53) with (IZR 9007199254740992); apply IZR_le; lia]|rewrite <- bpow_plus; apply bpow_le; lia]. }
  split; [|split; [|split]].
  - destruct (timed_ok one_two ltac:(cbn; auto)) as (T & K & _). split; [exact T|]. split; [exact K|]. split; [apply DG; cbn; auto|].
    intros h. eexists _, _. split; [vm_compute; reflexivity|]. split; [|split; [|vm_compute; reflexivity]]; unfold good_time, real_of; cbn [real_letter].
    + match goal with |- context [f64_of_bits ?x] => replace x with 0x3FF0000000000000 by (vm_compute; reflexivity) end. apply GT. cbn; auto.
    + match goal with |- context [f64_of_bits ?x] => replace x with 0x4000000000000000 by (vm_compute; reflexivity) end. apply GT. cbn; auto.
  - destruct (timed_ok nans ltac:(cbn; auto)) as (T & K & _). split; [exact T|]. split; [apply DG; cbn; auto|].
    intros h. eexists _, _. split; [vm_compute; reflexivity|]. split; vm_compute; reflexivity.
  - split; [apply gapped_translatable; cbn; tauto|]. split; [|intros h; vm_compute; reflexivity].
    unfold file_scale. match goal with |- context [f64_of_bits ?x] => replace x with 0x3FF0000000000000 by (vm_compute; reflexivity) end. rewrite one_bits. apply (of_Z_ok 1). lia.
  - destruct (gapped_standard 2 0 ltac:(cbn; tauto) ltac:(cbn; tauto)) as (_ & _ & HE & _). split; [|intros h; vm_compute; reflexivity].
    intros _. split; [exact HE|]. assert (HN : f_npts (gapped 2 0) = 3) by (vm_compute; reflexivity). rewrite HN. lia.
Qed.

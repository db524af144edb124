(** C73: the filter options of the command-line programs. *)
From Coq Require Import ZArith Reals List Bool Lia Lra.
From Coq Require Import ZifyBool ZifyNat.
Import ListNotations.
From Verif Require Import Outcome Bytes Endian_Model Float64 Float64_Proofs Classif_Model Header_Model Point_Model Point_Spec Point_Api Point_Proofs
  Bounds_Model Bounds_Spec Bounds_Proofs Filter_Model Filter_Spec Filter_Api Filter_Proofs Prop_Bounds Prop_Filter Writer_Append Cli_Model Cli_Spec Cli_Proofs
  Stream_Model Reader_Model IO_Spec Reader_Proofs Reader_Spec Reader_Api Prop_Reader.
Local Open Scope Z_scope.
Local Notation length := List.length (only parsing).

(** The points that come through are exactly the selected ones, in order. *)
Theorem C73_filters_partial : forall lexd atof o q, typed lexd atof o q ->
  exists fs, get_filters lexd atof o = Ok fs /\
  forall ps, Forall usual_point ps ->
  exists sel sel', (forall p, In p ps -> (sel p = true <-> selected_first q p) /\ (sel' p = true <-> selected_then q p)) /\
    cfilter_points fs ps = Ok (filter sel' (thinned (q_thin q) (filter sel ps))).
Proof.
  intros lexd atof o q T. destruct (get_filters_ok lexd atof o q T) as (a & b & CA & CB & E). eexists. split; [exact E|]. intros ps F.
  exists (fun p => forallb (fun f => cverdict f p) a), (fun p => forallb (fun f => cverdict f p) b). split.
  - intros p Hp. rewrite Forall_forall in F. split; [exact (proj2 (CA p (F p Hp)))|exact (proj2 (CB p (F p Hp)))].
  - assert (K : 0 <= q_thin q < 2 ^ 32) by (unfold typed in T; tauto).
    unfold thinned. destruct (Z.eqb_spec (q_thin q) 0) as [Q|Q].
    + cbn [app]. rewrite (cpoints_plain (a ++ b) _ ps (clause_app _ _ _ _ CA CB) F). rewrite filter_both. f_equal. apply filter_ext. intros p. apply forallb_app.
    + assert (K1 : 1 <= q_thin q < 2 ^ 32) by lia. rewrite thin_new_at by exact K1. cbn [app]. apply (cpoints_thin a b _ _ (q_thin q) ps CA CB F K1 0). lia.
Qed.
(** Without --thin: the points that meet every condition. *)
Theorem C73_conjunction_partial : forall lexd atof o q, typed lexd atof o q -> q_thin q = 0 ->
  exists fs, get_filters lexd atof o = Ok fs /\
  forall ps, Forall usual_point ps -> exists kept, cfilter_points fs ps = Ok kept /\
    (forall p, In p kept <-> In p ps /\ selected_first q p /\ selected_then q p) /\
    exists sel, kept = filter sel ps.
Proof.
  intros lexd atof o q T K. destruct (C73_filters_partial lexd atof o q T) as (fs & E & H). exists fs. split; [exact E|]. intros ps F.
  destruct (H ps F) as (s & s' & S & R). rewrite K in R. unfold thinned in R. cbn [Z.eqb] in R. rewrite filter_both in R. eexists. split; [exact R|]. split.
  - intros p. rewrite filter_In, andb_true_iff. split; [intros (A & B & C)|intros (A & B & C)]; (split; [exact A|]); destruct (S p A) as (S1 & S2); [rewrite <- S1, <- S2|rewrite S1, S2]; auto.
  - eexists. reflexivity.
Qed.

(** Reading a file through the filters of such a command line: the records that meet
    every condition, in order, up to the isolated last record of C27. *)
Theorem C73_read_partial : forall lexd atof o q xml doy year F, typed lexd atof o q -> q_thin q = 0 ->
  las_file F -> no_schema_vlr F -> 0 < f_reclen F -> exact_end F -> f_npts F + 1 < 2 ^ 32 ->
  exists fs r, get_filters lexd atof o = Ok fs /\ reader_open xml doy year F = Ok r /\
  ((forall k, 0 <= k < f_npts F -> usual_point (mkPoint (file_record F k) (r_hdr r))) ->
   forall fuel, (Z.to_nat (f_npts F) < fuel)%nat ->
   exists sel r1,
     (forall k, 0 <= k < f_npts F -> (sel (file_record F k) = true <-> selected_first q (mkPoint (file_record F k) (r_hdr r)) /\ selected_then q (mkPoint (file_record F k) (r_hdr r)))) /\
     read_all (stateless (fun p => match cfilter_point fs p with Ok (b, _) => b | _ => false end)) fuel r tt =
       Ok (if isolated_last F sel then removelast (filter sel (records_from F 0)) else filter sel (records_from F 0), true, r1, tt)).
Proof.
  intros lexd atof o q xml doy year F T K HF Hn HR HE HN. destruct (get_filters_ok lexd atof o q T) as (a & b & CA & CB & E). rewrite K in E. cbn [Z.eqb app] in E.
  destruct (C27_filtered_exact xml doy year F HF Hn HR HE HN) as (r & ER & X). exists (a ++ b), r. split; [exact E|]. split; [exact ER|]. intros U fuel Hf.
  destruct (X (fun p => match cfilter_point (a ++ b) p with Ok (b, _) => b | _ => false end) fuel Hf) as (r1 & E1).
  eexists. exists r1. split; [|exact E1]. intros k Hk. cbv beta. destruct (clause_app _ _ _ _ CA CB _ (U k Hk)) as (R & V). rewrite (cpoint_plain _ _ R). exact V.
Qed.

(** ** concrete command lines *)
(** las2las --keep-classes 2 5 --keep-intensity 10-200 --drop-scan-angle ">20"
    --keep-color 0,0,0-125,125,125 --thin 2 --last-return-only --minx .. --maxy .. *)
Definition example_box : box := mkBox f64_zero f64_zero (f64_of_Z 100) (f64_of_Z 100) None.
Definition example_options : cli :=
  mkCli (Some [2; 5]) None None None (Some f64_zero) (Some (f64_of_Z 100)) (Some f64_zero) (Some (f64_of_Z 100)) None None None
    (Some [49; 48; 45; 50; 48; 48]) None None (Some [62; 50; 48]) None None
    (Some [48; 44; 48; 44; 48; 45; 49; 50; 53; 44; 49; 50; 53; 44; 49; 50; 53]) None 2 true false false.
Definition example_request : request :=
  mkRequest (Some [2; 5]) None None (Some example_box) (Some (Between 10 200)) None None (Some (OpGt, 20)) None None
    (Some (mkColor 0 0 0, mkColor 125 125 125)) None 2 true false false.
Lemma num2 a b : 0 <= a <= 9 -> 0 <= b <= 9 -> numeral [48 + a; 48 + b] (10 * a + b).
Proof. intros A B. exact (num_more [48 + a] a b (num_digit a A) B). Qed.
Lemma num3 a b c : 0 <= a <= 9 -> 0 <= b <= 9 -> 0 <= c <= 9 -> numeral [48 + a; 48 + b; 48 + c] (10 * (10 * a + b) + c).
Proof. intros A B C. exact (num_more [48 + a; 48 + b] (10 * a + b) c (num2 a b A B) C). Qed.
Theorem C73_example : forall lexd atof, typed lexd atof example_options example_request.
Proof.
  intros lexd atof. unfold typed, example_options, example_request.
  cbn [both q_classes o_keep_classes o_drop_classes q_returns o_keep_returns o_drop_returns q_extent o_extent q_sides o_minx o_maxx o_miny o_maxy o_minz o_maxz
    q_intensity o_keep_intensity q_not_intensity o_drop_intensity q_angle o_keep_angle q_not_angle o_drop_angle q_time o_keep_time q_not_time o_drop_time
    q_color o_keep_color q_not_color o_drop_color q_thin o_thin q_last o_last q_first o_first q_valid o_valid b_minx b_miny b_maxx b_maxy b_z option_map example_box].
  split. { split; [reflexivity|]. split; [discriminate|]. constructor; [lia|constructor; [lia|constructor]]. }
  split; [reflexivity|]. split; [exact I|]. split; [reflexivity|]. split; [exact I|].
  split. { split; [reflexivity|]. split; [|repeat (split; [reflexivity|]); reflexivity]. unfold box_ok, b_minx, b_miny, b_maxx, b_maxy, b_z.
    repeat (split; [vm_compute; reflexivity|]). discriminate. }
  split. { apply (ct_between intensity_text [49; 48] [50; 48; 48] 10 200); split; [exact (num2 1 0 ltac:(lia) ltac:(lia))|reflexivity|exact (num3 2 0 0 ltac:(lia) ltac:(lia) ltac:(lia))|reflexivity]. }
  split; [exact I|]. split; [exact I|].
  split. { apply (ct_compared angle_text OpGt [50; 48] 20). split; [exact (num2 2 0 ltac:(lia) ltac:(lia))|reflexivity]. }
  split; [exact I|]. split; [exact I|].
  split. { exists [48; 44; 48; 44; 48], [49; 50; 53; 44; 49; 50; 53; 44; 49; 50; 53]. split; [|split; [|reflexivity]].
    - exists [48], [48], [48]. split; [exact (num_digit 0 ltac:(lia))|]. split; [exact (num_digit 0 ltac:(lia))|]. split; [exact (num_digit 0 ltac:(lia))|].
      split; [|reflexivity]. unfold color_ok, in_unsigned. cbn [fst c_red c_green c_blue]. lia.
    - exists [49; 50; 53], [49; 50; 53], [49; 50; 53]. pose proof (num3 1 2 5 ltac:(lia) ltac:(lia) ltac:(lia)) as N. split; [exact N|]. split; [exact N|]. split; [exact N|].
      split; [|reflexivity]. unfold color_ok, in_unsigned. cbn [snd c_red c_green c_blue]. lia. }
  split; [exact I|]. split; [reflexivity|]. split; [lia|]. repeat (split; [reflexivity|]). reflexivity.
Qed.

(** ** what goes wrong *)
(** A filter that rejects every point empties the result, whatever the others do. *)
Lemma reject_point f : forall fs p b fs1, In f fs -> cfilt_run f p = Ok (false, f) -> cfilter_point fs p = Ok (b, fs1) -> b = false /\ In f fs1.
Proof.
  induction fs as [|g fs IH]; intros p b fs1 H R E; [destruct H|]. cbn [cfilter_point] in E.
  destruct (cfilt_run g p) as [[bg g1]| |] eqn:EG; cbn [obind] in E; [|discriminate E|discriminate E].
  destruct bg; cbn [negb] in E.
  - destruct H as [->|H]; [rewrite R in EG; discriminate|].
    destruct (cfilter_point fs p) as [[b2 fs2]| |] eqn:EF; cbn [obind] in E; [|discriminate E|discriminate E].
    destruct (IH p b2 fs2 H R EF) as (-> & Hi). injection E as <- <-. split; [reflexivity|now right].
  - injection E as <- <-. split; [reflexivity|]. destruct H as [->|H]; [|now right]. rewrite R in EG. injection EG as <-. now left.
Qed.
Lemma reject_all f : forall ps fs kept, In f fs -> (forall p, In p ps -> cfilt_run f p = Ok (false, f)) -> cfilter_points fs ps = Ok kept -> kept = [].
Proof.
  induction ps as [|p ps IH]; intros fs kept H R E; cbn [cfilter_points] in E; [apply Ok_inj in E; now subst|].
  destruct (cfilter_point fs p) as [[b fs1]| |] eqn:EF; cbn [obind] in E; [|discriminate E|discriminate E].
  destruct (reject_point f fs p b fs1 H (R p (or_introl eq_refl)) EF) as (-> & Hi).
  destruct (cfilter_points fs1 ps) as [rest| |] eqn:ER; cbn [obind] in E; [|discriminate E|discriminate E].
  apply Ok_inj in E. subst kept. apply (IH fs1 rest Hi); [|exact ER]. intros q Hq. apply R. now right.
Qed.
(** the filters of a successful call, option by option *)
Lemma get_filters_inv lexd atof o fs : get_filters lexd atof o = Ok fs ->
  exists f1 f2 f3 f4 f5 rest,
    opt (o_keep_classes o) (fun l => make_classes l eInclusion) = Ok f1 /\ opt (o_drop_classes o) (fun l => make_classes l eExclusion) = Ok f2 /\
    opt (o_keep_returns o) (fun l => Ok [CF (FReturn eInclusion l false)]) = Ok f3 /\
    opt (o_drop_returns o) (fun _ => match o_keep_returns o with Some l => Ok [CF (FReturn eExclusion l false)] | None => Throw EInvalidArgument end) = Ok f4 /\
    opt (o_extent o) (extent_filter atof o) = Ok f5 /\
    (exists mid, rest = mid ++ (if snd (side_box o) then match o_extent o with Some _ => [] | None => [CF (FBounds eInclusion (fst (side_box o)))] end else [])) /\
    fs = f1 ++ f2 ++ f3 ++ f4 ++ f5 ++ rest.
Proof.
  unfold get_filters. intros E.
  apply obind_ok in E as (f1 & E1 & E). apply obind_ok in E as (f2 & E2 & E). apply obind_ok in E as (f3 & E3 & E). apply obind_ok in E as (f4 & E4 & E).
  apply obind_ok in E as (f5 & E5 & E). apply obind_ok in E as (f6 & E6 & E). apply obind_ok in E as (f7 & E7 & E). apply obind_ok in E as (f8 & E8 & E).
  apply obind_ok in E as (f9 & E9 & E). apply obind_ok in E as (f10 & E10 & E). apply obind_ok in E as (f11 & E11 & E). apply obind_ok in E as (f12 & E12 & E).
  apply obind_ok in E as (f13 & E13 & E). cbv zeta in E. destruct (o_first o && o_last o); [discriminate|]. apply Ok_inj in E.
  exists f1, f2, f3, f4, f5. eexists. split; [exact E1|]. split; [exact E2|]. split; [exact E3|]. split; [exact E4|]. split; [exact E5|]. split; [|symmetry; exact E].
  eexists. rewrite !app_assoc. reflexivity.
Qed.
(** --drop-classes drops every point. *)
Theorem C73_drop_classes_refuted : forall lexd atof o l fs ps kept, o_drop_classes o = Some l -> l <> [] -> Forall (fun c => 0 <= c < 32) l ->
  get_filters lexd atof o = Ok fs -> Forall usual_point ps -> cfilter_points fs ps = Ok kept -> kept = [].
Proof.
  intros lexd atof o l fs ps kept D N F E W K. destruct (get_filters_inv lexd atof o fs E) as (f1 & f2 & f3 & f4 & f5 & rest & _ & E2 & _ & _ & _ & _ & ->).
  rewrite D in E2. cbn [opt] in E2. unfold make_classes in E2. rewrite class_list_id in E2 by exact F. cbn [obind] in E2. apply Ok_inj in E2. subst f2.
  apply (reject_all (CF (FClass eExclusion l)) ps _ kept) in K; [exact K|apply in_or_app; right; now left|].
  intros p Hp. rewrite Forall_forall in W. destruct (C33_list_exclusion_exact_refuted l p (proj1 (W p Hp))) as (b & b' & Q & _ & I & _). cbn [cfilt_run filt_run]. rewrite Q. cbn [omap obind].
  destruct b; [destruct (N (proj1 I eq_refl))|reflexivity].
Qed.
(** --drop-returns is an error unless --keep-returns is given as well, and then
    every point is dropped. *)
Theorem C73_drop_returns_refuted : forall lexd atof o d, o_drop_returns o = Some d ->
  (o_keep_returns o = None -> forall fs, get_filters lexd atof o <> Ok fs) /\
  (forall l fs ps kept, o_keep_returns o = Some l -> l <> [] -> get_filters lexd atof o = Ok fs -> Forall usual_point ps -> cfilter_points fs ps = Ok kept -> kept = []).
Proof.
  intros lexd atof o d D. split.
  - intros K fs E. destruct (get_filters_inv lexd atof o fs E) as (f1 & f2 & f3 & f4 & f5 & rest & _ & _ & _ & E4 & _). rewrite D, K in E4. discriminate E4.
  - intros l fs ps kept K N E W R. destruct (get_filters_inv lexd atof o fs E) as (f1 & f2 & f3 & f4 & f5 & rest & _ & _ & _ & E4 & _ & _ & ->).
    rewrite D, K in E4. cbn [opt] in E4. apply Ok_inj in E4. subst f4.
    apply (reject_all (CF (FReturn eExclusion l false)) ps _ kept) in R; [exact R|apply in_or_app; right; apply in_or_app; right; apply in_or_app; right; now left|].
    intros p Hp. rewrite Forall_forall in W. destruct (C33_list_exclusion_exact_refuted l p (proj1 (W p Hp))) as (b & b' & _ & Q & _ & I). cbn [cfilt_run filt_run]. rewrite Q. cbn [omap obind].
    destruct b'; [destruct (N (proj1 I eq_refl))|reflexivity].
Qed.
(** Some of --minx ... --maxz given, but --minx or --miny not: every point is
    dropped, wherever it lies (below the largest double). *)
Lemma contains_from b p x y z rx ry rest : get_x p = Ok x -> get_y p = Ok y -> get_z p = Ok z -> b = rx :: ry :: rest ->
  range_contains_v rx x = false \/ range_contains_v ry y = false -> bounds_filter eInclusion b p = Ok false.
Proof.
  intros Ex Ey Ez -> H. unfold bounds_filter, bounds_contains_point. cbn [List.length Nat.ltb Nat.leb]. rewrite Ex, Ey, Ez. cbn [obind bounds_contains_xyz].
  destruct H as [->| ->]; cbn [negb]; [reflexivity|]. now destruct (range_contains_v rx x).
Qed.
Lemma dbl_max_fin : f64_fin dbl_max = true. Proof. vm_compute. reflexivity. Qed.
Lemma not_above m v : f64_fin v = true -> (f64_R v < f64_R dbl_max)%R -> range_contains_v (mkRange dbl_max m) v = false.
Proof.
  intros F L. unfold range_contains_v. cbn [rg_min]. destruct (fcase_le dbl_max v dbl_max_fin F) as [(_ & Q)|(-> & _)]; [lra|reflexivity].
Qed.
Theorem C73_open_box_refuted : forall lexd atof o fs ps kept,
  o_extent o = None -> o_minx o = None \/ o_miny o = None ->
  existsb (fun v => match v with Some _ => true | None => false end) [o_minx o; o_maxx o; o_miny o; o_maxy o; o_minz o; o_maxz o] = true ->
  get_filters lexd atof o = Ok fs -> Forall usual_point ps ->
  (forall p v, In p ps -> get_x p = Ok v \/ get_y p = Ok v -> (f64_R v < f64_R dbl_max)%R) ->
  cfilter_points fs ps = Ok kept -> kept = [].
Proof.
  intros lexd atof o fs ps kept X M S E W B R. destruct (get_filters_inv lexd atof o fs E) as (f1 & f2 & f3 & f4 & f5 & rest & _ & _ & _ & _ & _ & (mid & ->) & ->).
  assert (SB : snd (side_box o) = true).
  { unfold side_box, set_side, fst, snd. cbn [existsb] in S.
    destruct (o_minx o), (o_maxx o), (o_miny o), (o_maxy o), (o_minz o), (o_maxz o); try reflexivity. discriminate S. }
  rewrite SB, X in R.
  apply (reject_all (CF (FBounds eInclusion (fst (side_box o)))) ps _ kept) in R; [exact R|do 6 (apply in_or_app; right); now left|].
  intros p Hp. rewrite Forall_forall in W. destruct (W p Hp) as (Wp & Wx & Wy & _ & _). destruct (wf_xyz p Wp) as (x & y & z & Ex & Ey & Ez).
  pose proof (B p x Hp (or_introl Ex)) as Bx. pose proof (B p y Hp (or_intror Ey)) as By. pose proof (Wx x Ex) as Fx. pose proof (Wy y Ey) as Fy.
  cbn [cfilt_run filt_run].
  assert (Q : bounds_filter eInclusion (fst (side_box o)) p = Ok false); [|rewrite Q; reflexivity].
  unfold side_box, set_side, fst, snd in *. clear S. destruct M as [M|M]; rewrite M in *.
  - destruct (o_maxx o), (o_miny o), (o_maxy o), (o_minz o), (o_maxz o);
      first [discriminate SB | reflexivity | eapply contains_from; [exact Ex|exact Ey|exact Ez|reflexivity|left; exact (not_above _ x Fx Bx)]].
  - destruct (o_minx o), (o_maxx o), (o_maxy o), (o_minz o), (o_maxz o);
      first [discriminate SB | reflexivity | eapply contains_from; [exact Ex|exact Ey|exact Ez|reflexivity|right; exact (not_above _ y Fy By)]].
Qed.
(** --extent together with the sides keeps the points of the smallest box around
    both, also those outside the extent and outside the sides. *)
Lemma grown_contains a b v : range_fin a -> range_fin b -> f64_fin v = true ->
  (Rmin (Rmin (f64_R (rg_min a)) (f64_R (rg_min b))) (f64_R (rg_max b)) <= f64_R v <= Rmax (Rmax (f64_R (rg_max a)) (f64_R (rg_min b))) (f64_R (rg_max b)))%R <->
  range_contains_v (range_grow a b) v = true.
Proof.
  intros (A1 & A2) (B1 & B2) F. unfold range_contains_v, range_grow, range_grow_v. cbn [rg_min rg_max].
  assert (MIN : forall x y, f64_fin x = true -> f64_fin y = true -> f64_fin (if f64_lt y x then y else x) = true /\ f64_R (if f64_lt y x then y else x) = Rmin (f64_R x) (f64_R y)).
  { intros x y X Y. destruct (fcase_lt y x Y X) as [(-> & Q)|(-> & Q)]; (split; [assumption|]); [rewrite Rmin_right by lra|rewrite Rmin_left by lra]; reflexivity. }
  assert (MAX : forall x y, f64_fin x = true -> f64_fin y = true -> f64_fin (if f64_gt y x then y else x) = true /\ f64_R (if f64_gt y x then y else x) = Rmax (f64_R x) (f64_R y)).
  { intros x y X Y. unfold f64_gt. destruct (fcase_lt x y X Y) as [(-> & Q)|(-> & Q)]; (split; [assumption|]); [rewrite Rmax_right by lra|rewrite Rmax_left by lra]; reflexivity. }
  destruct (MIN (rg_min a) (rg_min b) A1 B1) as (M1 & M2). destruct (MIN _ (rg_max b) M1 B2) as (M3 & M4). rewrite M2 in M4.
  destruct (MAX (rg_max a) (rg_min b) A2 B1) as (N1 & N2). destruct (MAX _ (rg_max b) N1 B2) as (N3 & N4). rewrite N2 in N4.
  rewrite andb_true_iff, (f64_le_R _ _ M3 F), (f64_le_R _ _ F N3), M4, N4. tauto.
Qed.
Definition with_box (e : text) (s : box) : cli :=
  mkCli None None None None (Some (b_minx s)) (Some (b_maxx s)) (Some (b_miny s)) (Some (b_maxy s)) None None (Some e) None None None None None None None None 0 false false false.
Theorem C73_extent_and_sides_refuted : forall lexd atof text e s, box_ok e -> box_ok s -> b_z e = None -> b_z s = None ->
  (f64_R (b_minx s) <= f64_R (b_maxx s))%R -> (f64_R (b_miny s) <= f64_R (b_maxy s))%R ->
  map atof (tokens separators text) = [b_minx e; b_miny e; b_maxx e; b_maxy e] ->
  exists fs, get_filters lexd atof (with_box text s) = Ok fs /\
  forall p x y, usual_point p -> get_x p = Ok x -> get_y p = Ok y ->
  exists b, cfilter_point fs p = Ok (b, fs) /\
    (b = true <-> (Rmin (f64_R (b_minx e)) (f64_R (b_minx s)) <= f64_R x <= Rmax (f64_R (b_maxx e)) (f64_R (b_maxx s)) /\
                   Rmin (f64_R (b_miny e)) (f64_R (b_miny s)) <= f64_R y <= Rmax (f64_R (b_maxy e)) (f64_R (b_maxy s)))%R).
Proof.
  intros lexd atof text e s (E1 & E2 & E3 & E4 & _) (S1 & S2 & S3 & S4 & _) Ze Zs Lx Ly T.
  eexists. split.
  { unfold get_filters, with_box. cbn [o_drop_classes o_keep_classes o_keep_returns o_drop_returns o_extent o_keep_intensity o_drop_intensity o_keep_angle o_drop_angle
      o_keep_time o_drop_time o_keep_color o_drop_color o_thin o_last o_first o_valid opt obind andb Z.eqb].
    unfold extent_filter. rewrite (extent_box_ok atof text e) by (rewrite Ze; exact T). cbn [obind].
    rewrite (side_box_some _ s) by (rewrite ?Zs; reflexivity). cbn [fst snd]. unfold box_bounds. rewrite Ze, Zs. unfold bounds4. cbn [bounds_grow obind app]. reflexivity. }
  intros p x y (W & Wx & Wy & _) Ex Ey. destruct (wf_xyz p W) as (x' & y' & z & _ & _ & Ez).
  cbn [cfilter_point cfilt_run filt_run]. unfold bounds_filter, bounds_contains_point. cbn [List.length Nat.ltb Nat.leb]. rewrite Ex, Ey, Ez. cbn [obind omap bounds_contains_xyz].
  pose proof (grown_contains (mkRange (b_minx e) (b_maxx e)) (mkRange (b_minx s) (b_maxx s)) x (conj E1 E3) (conj S1 S3) (Wx x Ex)) as CX.
  pose proof (grown_contains (mkRange (b_miny e) (b_maxy e)) (mkRange (b_miny s) (b_maxy s)) y (conj E2 E4) (conj S2 S4) (Wy y Ey)) as CY.
  cbn [rg_min rg_max] in CX, CY.
  assert (G : forall a l h : R, (l <= h -> Rmin (Rmin a l) h = Rmin a l /\ Rmax (Rmax a l) h = Rmax a h)%R).
  { intros a l h L. unfold Rmin, Rmax. split; repeat destruct Rle_dec; lra. }
  rewrite (proj1 (G _ _ _ Lx)), (proj2 (G _ _ _ Lx)) in CX. rewrite (proj1 (G _ _ _ Ly)), (proj2 (G _ _ _ Ly)) in CY.
  destruct (range_contains_v (range_grow _ _) x), (range_contains_v (range_grow _ _) y); cbn [negb obind]; eexists; (split; [reflexivity|]); rewrite CX, CY; split; intros Q; try tauto; try discriminate; destruct Q; discriminate.
Qed.
(** --extent with four numbers and --minx: the box of the sides has too few
    dimensions and is read out of bounds. *)
Theorem C73_extent_and_minx_refuted : forall lexd atof text v a b c d, map atof (tokens separators text) = [a; b; c; d] ->
  get_filters lexd atof (mkCli None None None None (Some v) None None None None None (Some text) None None None None None None None None 0 false false false) = UB UBOutOfBounds.
Proof.
  intros lexd atof text v a b c d T. unfold get_filters. cbn [o_drop_classes o_keep_classes o_keep_returns o_drop_returns o_extent opt obind].
  unfold extent_filter, extent_box. rewrite T. reflexivity.
Qed.
(** Negative scan angles cannot be asked for: a text that starts with a minus sign,
    such as -10-10, and a comparison with one, such as >=-10, are errors. *)
Definition keep_angle (s : text) : cli := mkCli None None None None None None None None None None None None None (Some s) None None None None None 0 false false false.
Definition drop_angle (s : text) : cli := mkCli None None None None None None None None None None None None None None (Some s) None None None None 0 false false false.
Theorem C73_negative_angle_refuted : forall lexd atof s o,
  get_filters lexd atof (keep_angle (45 :: s)) = Throw EInvalidArgument /\
  get_filters lexd atof (keep_angle (op_text o ++ 45 :: s)) = Throw EInvalidArgument /\
  get_filters lexd atof (drop_angle (op_text o ++ 45 :: s)) = Throw ERuntime.
Proof.
  intros lexd atof s o. split; [reflexivity|]. split; destruct o; reflexivity.
Qed.
(** The example of --drop-color in the help text is an error. *)
Definition drop_color (s : text) : cli := mkCli None None None None None None None None None None None None None None None None None None (Some s) 0 false false false.
Definition keep_color (s : text) : cli := mkCli None None None None None None None None None None None None None None None None None (Some s) None 0 false false false.
(** 255,255,255-65536,65536,65536 *)
Definition help_color : text := [50; 53; 53; 44; 50; 53; 53; 44; 50; 53; 53; 45; 54; 53; 53; 51; 54; 44; 54; 53; 53; 51; 54; 44; 54; 53; 53; 51; 54].
Theorem C73_help_color_refuted : forall lexd atof, get_filters lexd atof (drop_color help_color) = Throw ERuntime.
Proof. intros lexd atof. vm_compute. reflexivity. Qed.
(** A single colour, or a colour with two numbers, is read out of bounds. *)
Theorem C73_short_color_refuted : forall lexd atof r g b, numeral r (c_red b) -> numeral g (c_green b) -> color_ok b ->
  get_filters lexd atof (keep_color (r ++ [44] ++ g)) = UB UBOutOfBounds /\
  (forall s, color_text s b -> get_filters lexd atof (keep_color s) = UB UBOutOfBounds).
Proof.
  intros lexd atof r g b Hr Hg HO.
  assert (D : forall s : text, Forall (fun c => c <> 45) s -> Forall (fun c => existsb (Z.eqb c) [ch_dash] = false) s)
    by (intros s F; eapply Forall_impl; [|exact F]; cbn; intros; unfold ch_dash; lia).
  assert (G : forall s, make_color s eInclusion = UB UBOutOfBounds -> get_filters lexd atof (keep_color s) = UB UBOutOfBounds).
  { intros s H. unfold get_filters, keep_color. cbn [o_drop_classes o_keep_classes o_keep_returns o_drop_returns o_extent o_keep_intensity o_drop_intensity o_keep_angle o_drop_angle
      o_keep_time o_drop_time o_keep_color opt obind]. rewrite H. reflexivity. }
  split.
  - apply G. destruct (numeral_plain _ _ Hr) as (_ & Fr). destruct (numeral_plain _ _ Hg) as (_ & Fg).
    destruct (numeral_no_comma _ _ Hr) as (Nr & Cr). destruct (numeral_no_comma _ _ Hg) as (Ng & Cg).
    unfold make_color. rewrite tokens_one; [|destruct r; discriminate|apply D; repeat (apply Forall_app; split); try assumption; (apply Forall_cons; [discriminate|apply Forall_nil])].
    cbn [colors_of]. change 44 with ch_comma. rewrite tokens_sep by (auto; reflexivity). rewrite tokens_one by auto.
    destruct HO as (C1 & C2 & _). unfold in_unsigned in *. cbn [color_values]. rewrite (atoi_ok r _ Hr), (atoi_ok g _ Hg) by lia. cbn [obind].
    replace ((c_red b <? 0) || (65535 <? c_red b)) with false by lia. replace ((c_green b <? 0) || (65535 <? c_green b)) with false by lia. reflexivity.
  - intros s H. apply G. destruct (color_text_chars _ _ H) as (N & F). unfold make_color. rewrite tokens_one by auto. cbn [colors_of].
    rewrite (color_values_ok _ _ H). cbn [obind]. destruct H as (? & ? & ? & _ & _ & _ & O & _). rewrite (color_make_id _ O). reflexivity.
Qed.
(** --keep-classes c drops the points of class c that are marked synthetic, key-point
    or withheld. *)
Theorem C73_flagged_class_refuted : forall lexd atof c byte p, 0 <= c < 32 -> usual_point p ->
  get_classification p = Ok byte -> class_get byte = c -> class_is_synthetic byte || class_is_keypoint byte || class_is_withheld byte = true ->
  exists fs, get_filters lexd atof (mkCli (Some [c]) None None None None None None None None None None None None None None None None None None 0 false false false) = Ok fs /\
    cfilter_point fs p = Ok (false, fs).
Proof.
  intros lexd atof c byte p Hc W E C FL. eexists. split.
  { unfold get_filters. cbn [o_drop_classes o_keep_classes o_keep_returns o_drop_returns o_extent o_keep_intensity o_drop_intensity o_keep_angle o_drop_angle
      o_keep_time o_drop_time o_keep_color o_drop_color o_thin o_last o_first o_valid opt obind andb Z.eqb]. unfold make_classes. rewrite class_list_id by (constructor; [exact Hc|constructor]). reflexivity. }
  cbn [app snd side_box set_side cfilter_point cfilt_run filt_run o_minx o_maxx o_miny o_maxy o_minz o_maxz]. unfold classification_filter. rewrite E. cbn [obind omap list_loop].
  destruct (Z.eqb_spec byte c) as [Q|Q]; [|reflexivity]. exfalso. subst byte.
  assert (T : forall n, 5 <= n -> Z.testbit c n = false).
  { intros n Hn. destruct (Z.eq_dec c 0) as [->|N]; [apply Z.bits_0|]. apply Z.bits_above_log2; [lia|]. assert (Z.log2 c < 5) by (apply Z.log2_lt_pow2; lia). lia. }
  unfold class_is_synthetic, class_is_keypoint, class_is_withheld, eSyntheticBit, eKeyPointBit, eWithheldBit in FL. rewrite !T in FL by lia. discriminate.
Qed.
(** --keep-intensity with a plain number is accepted, and the first point read
    throws. *)
Theorem C73_plain_number_refuted : forall lexd atof s v p, intensity_text s v -> usual_point p ->
  exists fs, get_filters lexd atof (mkCli None None None None None None None None None None None (Some s) None None None None None None None 0 false false false) = Ok fs /\
    cfilter_point fs p = Throw ERuntime.
Proof.
  intros lexd atof s v p H W. destruct (numeral_plain s v (proj1 H)) as (F & D). eexists. split.
  { unfold get_filters. cbn [o_drop_classes o_keep_classes o_keep_returns o_drop_returns o_extent o_keep_intensity opt obind]. unfold keep_value.
    change ch_dash with 45. rewrite (proj1 (first_absent 45 s D)). unfold make_intensity.
    assert (P : parse_filter s = (None, s)).
    { assert (H60 : Forall (fun x => x <> 60) s) by (eapply Forall_impl; [|exact F]; cbn; tauto).
      assert (H61 : Forall (fun x => x <> 61) s) by (eapply Forall_impl; [|exact F]; cbn; tauto).
      assert (H62 : Forall (fun x => x <> 62) s) by (eapply Forall_impl; [|exact F]; cbn; tauto).
      apply first_absent in H60 as (A1 & A2). apply first_absent in H61 as (B1 & B2). apply first_absent in H62 as (D1 & D2).
      unfold parse_filter, has_predicate, ch_gt, ch_eq, ch_lt. cbn [forallb]. rewrite A1, B1, D1. reflexivity. }
    rewrite P, (lex_unsigned_ok s v H). reflexivity. }
  destruct (wf_intensity p (proj1 W)) as (x & E). cbn [app snd side_box set_side cfilter_point cfilt_run o_minx o_maxx o_miny o_maxy o_minz o_maxz]. rewrite E. reflexivity.
Qed.
(** --thin t is documented as removing every t-th point; it keeps only those. *)
Definition only_thin (t : Z) : cli := mkCli None None None None None None None None None None None None None None None None None None None t false false false.
Theorem C73_thin_refuted : forall lexd atof t ps, 1 <= t < 2 ^ 32 -> Forall usual_point ps ->
  exists fs kept, get_filters lexd atof (only_thin t) = Ok fs /\ cfilter_points fs ps = Ok kept /\
    Z.of_nat (length kept) = Z.max 0 ((Z.of_nat (length ps) - 1) / t).
Proof.
  intros lexd atof t ps Ht W. eexists _, _. split.
  { unfold get_filters, only_thin. cbn [o_drop_classes o_keep_classes o_keep_returns o_drop_returns o_extent o_keep_intensity o_drop_intensity o_keep_angle o_drop_angle
      o_keep_time o_drop_time o_keep_color o_drop_color o_thin o_last o_first o_valid opt obind andb]. destruct (Z.eqb_spec t 0); [lia|]. rewrite side_box_none by reflexivity. reflexivity. }
  cbn [app snd]. rewrite thin_new_at by exact Ht. split; [exact (cpoints_thin [] [] _ _ t ps clause_nil clause_nil W Ht 0 ltac:(lia))|].
  cbn [forallb]. assert (FT : forall l : list point, filter (fun _ => true) l = l) by (induction l as [|x l IH]; cbn [filter]; [reflexivity|now rewrite IH]). rewrite !FT.
  assert (W' : Forall point_wf ps) by (eapply Forall_impl; [|exact W]; cbn; intros p Hp; exact (proj1 Hp)).
  destruct (C34_thinning_count [] t ps W' eq_refl Ht) as (k1 & k2 & E1 & E2 & C). destruct (C34_thinning [] t ps W' eq_refl Ht) as (k3 & E3 & E4).
  rewrite E2 in E4. rewrite E1 in E3. apply Ok_inj in E3, E4. subst k3 k2.
  assert (P : filter_points [] ps = Ok ps) by (clear; induction ps as [|p ps IH]; cbn [filter_points filter_point obind]; [reflexivity|now rewrite IH]). rewrite P in E1. apply Ok_inj in E1. subst k1. exact C.
Qed.

(** The conditions above are met by real points, and a run of the filters. *)
Definition fin_ok (o : outcome f64) : bool := match o with Ok v => f64_fin v | _ => true end.
Lemma fin_of o : fin_ok o = true -> forall v, o = Ok v -> f64_fin v = true.
Proof. intros H v ->. exact H. Qed.
Lemma usual_class c : In c [2; 5; 7; 66] -> usual_point (class_point c).
Proof.
  intros H. split; [apply class_point_wf; cbn in H; intuition lia|].
  cbn [In] in H. repeat (destruct H as [<-|H]; [split; [|split; [|split]]; apply fin_of; vm_compute; reflexivity|]). destruct H.
Qed.
Theorem C73_instance : forall lexd atof, exists fs,
  get_filters lexd atof (mkCli (Some [2; 5]) None None None (Some (f64_of_Z (-1))) (Some f64_one) (Some (f64_of_Z (-1))) (Some f64_one) None None None
     (Some [48; 45; 49]) None None None None None None None 0 true false true) = Ok fs /\
  Forall usual_point [class_point 5; class_point 7; class_point 66; class_point 2] /\
  classes_of (cfilter_points fs [class_point 5; class_point 7; class_point 66; class_point 2]) = Ok [5; 2].
Proof.
  intros lexd atof. eexists. split; [reflexivity|]. split; [repeat (apply Forall_cons; [apply usual_class; cbn; tauto|]); apply Forall_nil|]. vm_compute. reflexivity.
Qed.
Print Assumptions C73_filters_partial. Print Assumptions C73_conjunction_partial. Print Assumptions C73_extent_and_sides_refuted.

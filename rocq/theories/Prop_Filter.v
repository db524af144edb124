(** C32, C33, C34: filters. *)
From Coq Require Import ZArith Reals List Bool Lia.
From Coq Require Import ZifyBool ZifyNat.
Import ListNotations.
From Verif Require Import Outcome Bytes Endian_Model Float64 Float64_Proofs Classif_Model Schema_Model Schema_Spec Schema_Api Header_Model Point_Model Point_Spec Point_Api Point_Proofs
  Bounds_Model Bounds_Spec Filter_Model Filter_Spec Filter_Api Filter_Proofs
  Stream_Model Stream_Proofs Reader_Model IO_Spec Reader_Proofs Reader_Schema Reader_Open Reader_Spec Reader_Api Reader_Hist Reader_Filter IO_Samples Prop_Bounds Prop_Reader.
Local Open Scope Z_scope.
Local Notation length := List.length (only parsing).

(** ** C32: inclusion filters *)
Theorem C32_classification : forall l p, point_wf p ->
  exists c b, get_classification p = Ok c /\ classification_filter eInclusion l p = Ok b /\ (b = true <-> listed l c).
Proof.
  intros l p W. destruct (wf_get p AClassification 120 8 false W eq_refl) as (c & E & _). cbn [api_get] in E.
  exists c. unfold classification_filter. rewrite E. eexists. split; [reflexivity|]. split; [reflexivity|]. apply list_loop_in.
Qed.
Theorem C32_returns : forall l p, point_wf p ->
  exists r b, get_return_number p = Ok r /\ return_filter eInclusion l false p = Ok b /\ (b = true <-> listed l r).
Proof.
  intros l p W. destruct (wf_get p AReturnNumber 112 3 false W eq_refl) as (c & E & _). cbn [api_get] in E.
  exists c. unfold return_filter. rewrite E. eexists. split; [reflexivity|]. split; [reflexivity|]. apply list_loop_in.
Qed.
Theorem C32_last_return : forall l p, point_wf p ->
  exists r n b, get_return_number p = Ok r /\ get_number_of_returns p = Ok n /\ return_filter eInclusion l true p = Ok b /\ (b = true <-> r = n).
Proof.
  intros l p W. destruct (wf_get p AReturnNumber 112 3 false W eq_refl) as (c & E & _).
  destruct (wf_get p ANumberOfReturns 115 3 false W eq_refl) as (n & E2 & _). cbn [api_get] in *.
  exists c, n. unfold return_filter. rewrite E, E2. eexists. split; [reflexivity|]. split; [reflexivity|]. split; [reflexivity|]. apply Z.eqb_eq.
Qed.
(** The validation filter keeps the points whose scan angle rank is within
    +-90 degrees (the other checked fields cannot be out of range). *)
Theorem C32_validation : forall p, point_wf p ->
  exists a b, get_scan_angle p = Ok a /\ validation_filter eInclusion p = Ok b /\ (b = true <-> -90 <= a <= 90) /\
    (is_ok (validate p) = true <-> b = true).
Proof.
  intros p W. destruct (wf_valid p W) as (sa & E & V). exists sa. unfold validation_filter. rewrite V. cbn [obind].
  eexists. split; [exact E|]. split; [reflexivity|]. split; [destruct (Z.leb_spec (-90) sa), (Z.leb_spec sa 90); cbn [andb]; split; intros Q; try discriminate; try reflexivity; lia|].
  pose proof (api_get_spec p AFlightLineEdge 119 1 false W eq_refl) as H2.
  pose proof (api_get_spec p AScanDirection 118 1 false W eq_refl) as H3. pose proof (api_get_spec p ANumberOfReturns 115 3 false W eq_refl) as H4.
  pose proof (api_get_spec p AReturnNumber 112 3 false W eq_refl) as H5. cbn [api_get decode_bits] in *.
  unfold validate. rewrite H2, H3, H4, H5, E. cbn [obind].
  pose proof (bits_at_range (rec_int p) 119 1 ltac:(lia)). pose proof (bits_at_range (rec_int p) 118 1 ltac:(lia)).
  pose proof (bits_at_range (rec_int p) 115 3 ltac:(lia)). pose proof (bits_at_range (rec_int p) 112 3 ltac:(lia)).
  unfold eScanAngleRankMin, eScanAngleRankMax. clear - H H0 H1 H6.
  destruct (Z.ltb_spec 7 (bits_at (rec_int p) 112 3)); [lia|]. destruct (Z.ltb_spec 7 (bits_at (rec_int p) 115 3)); [lia|].
  destruct (Z.ltb_spec 1 (bits_at (rec_int p) 118 1)); [lia|]. destruct (Z.ltb_spec 1 (bits_at (rec_int p) 119 1)); [lia|].
  destruct (Z.ltb_spec sa (-90)), (Z.ltb_spec 90 sa), (Z.leb_spec (-90) sa), (Z.leb_spec sa 90); cbn [orb andb is_ok]; try lia; tauto.
Qed.
Theorem C32_color : forall low high p, point_wf p ->
  exists c b, get_color p = Ok c /\ color_filter eInclusion (color_filter2 low high) p = Ok b /\
    (b = true <-> c_red low <= c_red c <= c_red high /\ c_green low <= c_green c <= c_green high /\ c_blue low <= c_blue c <= c_blue high).
Proof.
  intros low high p W. destruct (wf_color p W) as (c & E). exists c. unfold color_filter. rewrite E. eexists. split; [reflexivity|]. split; [reflexivity|].
  cbn [color_filter2 cl_low cl_high do_exclude is_inclusion negb].
  repeat match goal with |- context [if ?x <? ?y then _ else _] => destruct (Z.ltb_spec x y) end; split; intros X; try discriminate; try reflexivity; lia.
Qed.
(** A two-dimensional bounds filter keeps the points with x and y in the closed
    rectangle. *)
Theorem C32_bounds2 : forall minx miny maxx maxy p x y, point_wf p -> box_fin (bounds4 minx miny maxx maxy) ->
  get_x p = Ok x -> get_y p = Ok y -> f64_fin x = true -> f64_fin y = true ->
  exists b, bounds_filter eInclusion (bounds4 minx miny maxx maxy) p = Ok b /\
    (b = true <-> (f64_R minx <= f64_R x <= f64_R maxx /\ f64_R miny <= f64_R y <= f64_R maxy)%R).
Proof.
  intros minx miny maxx maxy p x y W Fb Ex Ey Fx Fy. destruct (wf_xyz p W) as (x' & y' & z & E1 & E2 & E3).
  rewrite Ex in E1. rewrite Ey in E2. injection E1 as <-. injection E2 as <-.
  unfold bounds_filter, bounds_contains_point, bounds4. cbn [List.length Nat.ltb Nat.leb]. rewrite Ex, Ey, E3. cbn [obind].
  eexists. split; [reflexivity|]. cbn [bounds_contains_xyz].
  apply Forall_inv in Fb as F1. apply Forall_inv_tail in Fb. apply Forall_inv in Fb as F2.
  pose proof (C35_contains_value _ x F1 Fx) as C1. pose proof (C35_contains_value _ y F2 Fy) as C2. unfold rset in *. cbn [rg_min rg_max] in *.
  destruct (range_contains_v _ x), (range_contains_v _ y); cbn [negb]; split; intros X; try discriminate; try reflexivity; tauto.
Qed.
(** Three-dimensional: also z, if the box has a height. *)
Theorem C32_bounds3 : forall minx miny minz maxx maxy maxz p x y z, point_wf p -> box_fin (bounds6 minx miny minz maxx maxy maxz) ->
  get_x p = Ok x -> get_y p = Ok y -> get_z p = Ok z -> f64_fin x = true -> f64_fin y = true -> f64_fin z = true ->
  compare_distance (range_length (mkRange minz maxz)) f64_zero = false ->
  exists b, bounds_filter eInclusion (bounds6 minx miny minz maxx maxy maxz) p = Ok b /\
    (b = true <-> (f64_R minx <= f64_R x <= f64_R maxx /\ f64_R miny <= f64_R y <= f64_R maxy /\ f64_R minz <= f64_R z <= f64_R maxz)%R).
Proof.
  intros minx miny minz maxx maxy maxz p x y z W Fb Ex Ey Ez Fx Fy Fz HL.
  unfold bounds_filter, bounds_contains_point, bounds6. cbn [List.length Nat.ltb Nat.leb]. rewrite Ex, Ey, Ez. cbn [obind].
  eexists. split; [reflexivity|]. cbn [bounds_contains_xyz].
  apply Forall_inv in Fb as F1. apply Forall_inv_tail in Fb. apply Forall_inv in Fb as F2. apply Forall_inv_tail in Fb. apply Forall_inv in Fb as F3.
  pose proof (C35_contains_value _ x F1 Fx) as C1. pose proof (C35_contains_value _ y F2 Fy) as C2. pose proof (C35_contains_value _ z F3 Fz) as C3.
  unfold rset in *. cbn [rg_min rg_max] in *. rewrite HL.
  destruct (range_contains_v _ x), (range_contains_v _ y), (range_contains_v _ z); cbn [negb]; split; intros X; try discriminate; try reflexivity; tauto.
Qed.
(** Value comparisons. *)
Theorem C32_value : forall T (c : T -> T -> bool) value v, value_filter eInclusion (Some c) value v = Ok (c v value).
Proof. intros T c value v. cbn. destruct (c v value); reflexivity. Qed.

(** The textual form: an operator followed by a number (no operator character in
    it) is parsed as written. *)
Definition op_text (o : cmp_op) : list Z :=
  match o with OpGe => [62; 61] | OpGt => [62] | OpLe => [60; 61] | OpLt => [60] | OpEq => [61; 61] end.
Definition no_op_char (s : list Z) : Prop := Forall (fun c => c <> 60 /\ c <> 61 /\ c <> 62) s.
Lemma first_absent c s : Forall (fun x => x <> c) s -> find_first c s = None /\ find_last c s = None.
Proof.
  induction 1 as [|x s Hx _ (IH1 & IH2)]; cbn [find_first find_last]; [auto|]. rewrite IH1, IH2. destruct (Z.eqb_spec x c); [lia|auto].
Qed.
Theorem C32_expression : forall o s, no_op_char s -> parse_filter (op_text o ++ s) = (Some o, s).
Proof.
  intros o s H.
  assert (H60 : Forall (fun x => x <> 60) s) by (eapply Forall_impl; [|exact H]; cbn; tauto).
  assert (H61 : Forall (fun x => x <> 61) s) by (eapply Forall_impl; [|exact H]; cbn; tauto).
  assert (H62 : Forall (fun x => x <> 62) s) by (eapply Forall_impl; [|exact H]; cbn; tauto).
  apply first_absent in H60 as (A1 & A2). apply first_absent in H61 as (B1 & B2). apply first_absent in H62 as (D1 & D2).
  destruct o; unfold parse_filter, has_predicate, ch_gt, ch_eq, ch_lt; cbn [op_text app forallb find_first find_last Z.eqb Pos.eqb];
    rewrite ?A1, ?A2, ?B1, ?B2, ?D1, ?D2; reflexivity.
Qed.
(** Several filters together keep the points every one of them keeps. *)
Theorem C32_filters_conjoin : forall fs ps, Forall point_wf ps -> forallb stateless_filt fs = true ->
  (forall f p, In f fs -> In p ps -> exists b, filt_keeps f p = Ok b) /\
  exists keep, (forall f p, In f fs -> In p ps -> filt_keeps f p = Ok (keep f p)) /\
    filter_points fs ps = Ok (filter (fun p => forallb (fun f => keep f p) fs) ps).
Proof.
  intros fs ps W S. rewrite forallb_forall in S. split.
  - intros f p Hf Hp. exists (verdict f p). rewrite Forall_forall in W. exact (proj2 (keeps_verdict f p (W p Hp) (S f Hf))).
  - exists verdict. split.
    + intros f p Hf Hp. rewrite Forall_forall in W. exact (proj2 (keeps_verdict f p (W p Hp) (S f Hf))).
    + apply filter_points_stateless; [exact W|]. now apply forallb_forall.
Qed.

(** The six-number colour constructor: the green and blue upper limits are
    exchanged. *)
Theorem C32_color6_exact : forall lr hr lb hb lg hg p, point_wf p ->
  in_unsigned 16 lr -> in_unsigned 16 hr -> in_unsigned 16 lb -> in_unsigned 16 hb -> in_unsigned 16 lg -> in_unsigned 16 hg ->
  exists c lim b, get_color p = Ok c /\ color_filter6 lr hr lb hb lg hg = Ok lim /\ color_filter eInclusion lim p = Ok b /\
    (b = true <-> lr <= c_red c <= hr /\ lg <= c_green c <= hb /\ lb <= c_blue c <= hg).
Proof.
  intros lr hr lb hb lg hg p W H1 H2 H3 H4 H5 H6. destruct (wf_color p W) as (c & E). exists c.
  unfold in_unsigned in *. unfold color_filter6, color_make.
  assert (X : forall a b d, 0 <= a < 2 ^ 16 -> 0 <= b < 2 ^ 16 -> 0 <= d < 2 ^ 16 -> (65535 <? a) || (65535 <? b) || (65535 <? d) = false) by (intros; lia).
  rewrite (X lr lg lb), (X hr hb hg) by assumption. cbn [obind].
  rewrite !Z.mod_small by assumption. unfold color_filter. rewrite E. do 2 eexists. split; [reflexivity|]. split; [reflexivity|]. split; [reflexivity|].
  cbn [cl_low cl_high do_exclude is_inclusion negb c_red c_green c_blue].
  repeat match goal with |- context [if ?x <? ?y then _ else _] => destruct (Z.ltb_spec x y) end; split; intros Y; try discriminate; try reflexivity; lia.
Qed.

(** ** C33: exclusion filters *)
(** Colour boxes and value comparisons: exclusion is the complement. *)
Theorem C33_color_exclusion : forall lim p, point_wf p ->
  exists b, color_filter eInclusion lim p = Ok b /\ color_filter eExclusion lim p = Ok (negb b).
Proof.
  intros lim p W. destruct (wf_color p W) as (c & E). unfold color_filter. rewrite E. cbn [obind do_exclude is_inclusion negb]. eexists. split; [reflexivity|].
  repeat match goal with |- context [if ?x <? ?y then _ else _] => destruct (Z.ltb_spec x y) end; reflexivity.
Qed.
Theorem C33_value_exclusion : forall T (c : T -> T -> bool) value v, value_filter eExclusion (Some c) value v = Ok (negb (c v value)).
Proof. intros T c value v. cbn. destruct (c v value); reflexivity. Qed.
(** Lists, last-return, validation: an excluding filter rejects everything (except
    that an empty list accepts everything); bounds filters ignore the type. *)
Theorem C33_list_exclusion_exact_refuted : forall l p, point_wf p ->
  exists b b', classification_filter eExclusion l p = Ok b /\ return_filter eExclusion l false p = Ok b' /\
    (b = true <-> l = []) /\ (b' = true <-> l = []).
Proof.
  intros l p W. destruct (wf_get p AClassification 120 8 false W eq_refl) as (c & E & _).
  destruct (wf_get p AReturnNumber 112 3 false W eq_refl) as (r & E2 & _). cbn [api_get] in *.
  unfold classification_filter, return_filter. rewrite E, E2. do 2 eexists. split; [reflexivity|]. split; [reflexivity|]. split; apply list_loop_ex.
Qed.
Theorem C33_other_exclusion_exact_refuted : forall l b p, point_wf p ->
  return_filter eExclusion l true p = Ok false /\ validation_filter eExclusion p = Ok false /\
  bounds_filter eExclusion b p = bounds_filter eInclusion b p.
Proof.
  intros l b p W. destruct (wf_get p AReturnNumber 112 3 false W eq_refl) as (c & E & _).
  destruct (wf_get p ANumberOfReturns 115 3 false W eq_refl) as (n & E2 & _). cbn [api_get] in *.
  destruct (wf_valid p W) as (sa & _ & V).
  unfold return_filter, validation_filter. rewrite E, E2, V. split; [reflexivity|]. split; [|reflexivity]. cbn [obind]. now destruct (_ && _).
Qed.
Definition class_point (c : Z) : point := mkPoint (repeat 0 15 ++ [c] ++ repeat 0 18) (sample_header 2).
Lemma class_point_wf c : 0 <= c < 256 -> point_wf (class_point c).
Proof.
  intros H. split; [vm_compute; split; discriminate|]. split; [|vm_compute; discriminate]. unfold class_point, p_data.
  apply Forall_app. split; [apply Forall_forall; intros x Hx; apply repeat_spec in Hx; subst x; split; reflexivity || discriminate|].
  apply Forall_app. split; [constructor; [exact H|constructor]|]. apply Forall_forall; intros x Hx; apply repeat_spec in Hx; subst x; split; reflexivity || discriminate.
Qed.
Theorem C33_exclusion_is_complement_refuted : exists l p, point_wf p /\
  classification_filter eInclusion l p = Ok false /\ classification_filter eExclusion l p = Ok false.
Proof.
  exists [2], (class_point 5). split; [apply class_point_wf; lia|]. split; vm_compute; reflexivity.
Qed.

(** ** C34: thinning *)
(** With factor k, after any number of other filters, of the points that pass
    those the ones number k, 2k, 3k, ... are kept. *)
Theorem C34_thinning : forall fs k ps, Forall point_wf ps -> forallb stateless_filt fs = true -> 1 <= k < 2 ^ 32 ->
  exists kept, filter_points fs ps = Ok kept /\
    filter_points (fs ++ [FThin (thin_new k)]) ps = Ok (keep_at (every_kth k) 0 kept).
Proof.
  intros fs k ps W S Hk. eexists. split; [apply filter_points_stateless; assumption|].
  replace (thin_new k) with (thin_at k 0) by (unfold thin_new, thin_at; rewrite (Z.mod_small k) by lia; reflexivity).
  apply filter_points_thin_from; auto. lia.
Qed.
(** ... so of n points (n - 1) / k are kept. *)
Lemma keep_count {A} k (l : list A) : 1 <= k -> forall i, 1 <= i ->
  Z.of_nat (length (keep_at (every_kth k) i l)) = (i - 1 + Z.of_nat (length l)) / k - (i - 1) / k.
Proof.
  intros Hk. induction l as [|x l IH]; intros i Hi; cbn [keep_at List.length].
  - rewrite Z.add_0_r. lia.
  - unfold every_kth at 1. destruct (Z.ltb_spec 0 i); [|lia]. cbn [andb].
    assert (D : i / k = (i - 1) / k + (if i mod k =? 0 then 1 else 0)).
    { pose proof (Z.div_mod i k ltac:(lia)) as D1. pose proof (Z.mod_pos_bound i k ltac:(lia)) as B1.
      destruct (Z.eqb_spec (i mod k) 0) as [E|E].
      - assert (Q : (i - 1) / k = i / k - 1) by (symmetry; apply (Z.div_unique (i - 1) k (i / k - 1) (k - 1)); lia). lia.
      - assert (Q : (i - 1) / k = i / k) by (symmetry; apply (Z.div_unique (i - 1) k (i / k) (i mod k - 1)); lia). lia. }
    replace (i - 1 + Z.of_nat (S (length l))) with (i + 1 - 1 + Z.of_nat (length l)) by lia.
    destruct (i mod k =? 0); cbn [List.length]; rewrite ?Nat2Z.inj_succ, IH by lia; replace (i + 1 - 1) with i by lia; lia.
Qed.
Theorem C34_thinning_count : forall fs k ps, Forall point_wf ps -> forallb stateless_filt fs = true -> 1 <= k < 2 ^ 32 ->
  exists kept thinned, filter_points fs ps = Ok kept /\ filter_points (fs ++ [FThin (thin_new k)]) ps = Ok thinned /\
    Z.of_nat (length thinned) = Z.max 0 ((Z.of_nat (length kept) - 1) / k).
Proof.
  intros fs k ps W HS Hk. destruct (C34_thinning fs k ps W HS Hk) as (kept & E1 & E2). exists kept. eexists. split; [exact E1|]. split; [exact E2|].
  destruct kept as [|x l].
  - cbn [keep_at List.length]. assert ((0 - 1) / k = -1).
    { symmetry. apply (Z.div_unique (0 - 1) k (-1) (k - 1)); lia. }
    change (Z.of_nat 0) with 0. lia.
  - cbn [keep_at every_kth Z.ltb Z.compare andb]. change (0 + 1) with 1. rewrite keep_count by lia.
    cbn [List.length]. rewrite (Z.div_small (1 - 1)) by lia.
    replace (1 - 1 + Z.of_nat (length l)) with (Z.of_nat (S (length l)) - 1) by lia.
    assert (0 <= (Z.of_nat (S (length l)) - 1) / k) by (apply Z.div_pos; lia). lia.
Qed.
(** "Keep every k-th point" with k = 1 drops the first point. *)
Theorem C34_factor_one_refuted : exists ps, Forall point_wf ps /\ length ps = 3%nat /\
  filter_points [FThin (thin_new 1)] ps = Ok (tl ps).
Proof.
  exists [class_point 1; class_point 2; class_point 3]. split; [repeat (apply Forall_cons; [apply class_point_wf; lia|]); apply Forall_nil|]. split; [reflexivity|]. reflexivity.
Qed.

(** ** reading a file through a filter
    With a classification list installed, reading a file to the end delivers the
    records whose classification byte is listed (up to the isolated last record of
    C27). *)
Theorem C32_read_classes_partial : forall xml doy year F l, las_file F -> no_schema_vlr F -> 20 <= f_reclen F -> exact_end F -> f_npts F + 1 < 2 ^ 32 ->
  l <> [] ->
  exists r, reader_open xml doy year F = Ok r /\
  forall fuel, (Z.to_nat (f_npts F) < fuel)%nat ->
    exists r1, read_all (stateless (fun p => match filter_point [FClass eInclusion l] p with Ok (b, _) => b | _ => false end)) fuel r tt =
      Ok ((let acc d := existsb (Z.eqb (nth 15 d 0)) l in
           if isolated_last F acc then removelast (filter acc (records_from F 0)) else filter acc (records_from F 0)), true, r1, tt).
Proof.
  intros xml doy year F l HF Hn HR HE HN Hl.
  destruct (C27_filtered_exact xml doy year F HF Hn ltac:(lia) HE HN) as (r & E & X). exists r. split; [exact E|].
  intros fuel Hfu. destruct (X (fun p => match filter_point [FClass eInclusion l] p with Ok (b, _) => b | _ => false end) fuel Hfu) as (r1 & ER).
  exists r1. rewrite ER. cbv zeta.
  assert (LEN : forall k, 0 <= k < f_npts F -> (20 <= length (file_record F k))%nat /\ bytes_ok (file_record F k)).
  { intros k Hk. destruct HF as (HB & _). unfold file_record. split.
    - pose proof (exact_complete F HE ltac:(lia)) as HC. pose proof (rpos_in F k HB HC Hk) as RP. unfold rpos in RP. rewrite slice_length by exact RP. lia.
    - apply slice_bytes, HB. }
  assert (A : forall k, 0 <= k < f_npts F ->
    (match filter_point [FClass eInclusion l] (mkPoint (file_record F k) (r_hdr r)) with Ok (b, _) => b | _ => false end) = existsb (Z.eqb (nth 15 (file_record F k) 0)) l).
  { intros k Hk. destruct (LEN k Hk) as (L & B). cbn [filter_point filt_run]. unfold classification_filter, get_classification, get_byte, p_data.
    assert (DE : deref (file_record F k) 15 = Ok (nth 15 (file_record F k) 0)).
    { unfold deref. rewrite (nth_error_nth' (file_record F k) 0) by (change (Z.to_nat 15) with 15%nat; lia).
      destruct (Z.ltb_spec 15 (Z.of_nat (length (file_record F k)))); [reflexivity|lia]. }
    rewrite DE. cbn [obind omap]. unfold class_of_byte. rewrite Z.mod_small.
    2:{ assert (HI : In (nth 15 (file_record F k) 0) (file_record F k)) by (apply nth_In; lia).
        unfold bytes_ok in B. rewrite Forall_forall in B. exact (B _ HI). }
    rewrite list_loop_true. destruct l as [|y l']; [congruence|]. cbn [is_inclusion andb obind]. now destruct (existsb _ (y :: l')). }
  assert (FE : filter (fun d => match filter_point [FClass eInclusion l] (mkPoint d (r_hdr r)) with Ok (b, _) => b | _ => false end) (records_from F 0) =
               filter (fun d => existsb (Z.eqb (nth 15 d 0)) l) (records_from F 0)).
  { apply filter_ext_in. intros d Hd. unfold records_from in Hd. apply in_map_iff in Hd as (i & <- & Hi). apply in_seq in Hi. apply A. lia. }
  rewrite FE. unfold isolated_last.
  destruct (Z.leb_spec 3 (f_npts F)) as [L|L]; cbn [andb]; [|reflexivity].
  rewrite !A by lia. reflexivity.
Qed.

Definition classes_of (o : outcome (list point)) : outcome (list Z) := omap (map (fun p => nth 15 (p_data p) 0)) o.
Example C32_instance : point_wf (class_point 5) /\
  classes_of (filter_points [FClass eInclusion [2; 5]; FValid eInclusion] [class_point 5; class_point 7; class_point 2]) = Ok [5; 2].
Proof. split; [apply class_point_wf; lia|]. vm_compute. reflexivity. Qed.
Example C34_instance : classes_of (filter_points [FClass eInclusion [1; 2; 3; 4]; FThin (thin_new 2)]
   [class_point 1; class_point 7; class_point 2; class_point 3; class_point 4; class_point 7; class_point 1]) = Ok [3; 1].
Proof. vm_compute. reflexivity. Qed.

Print Assumptions C32_classification. Print Assumptions C32_bounds3. Print Assumptions C32_expression. Print Assumptions C32_filters_conjoin.
Print Assumptions C33_color_exclusion. Print Assumptions C34_thinning_count. Print Assumptions C32_read_classes_partial.

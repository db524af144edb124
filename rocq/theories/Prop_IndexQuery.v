(** C42: a query box over a freshly built spatial index returns the points in the
    box.

    The index is built by [build_index] (Index_Build.v) from the bounds of the file
    and the coordinates of its points; the query goes through [set_filter_values]
    and [index_filter] (Index_Query.v) over the VLRs that were written.  Floats are
    the ones the program uses; what rounding may cost is [margin]. *)
From Coq Require Import ZArith Reals List Bool Lia Lra.
From Coq Require Import ZifyBool ZifyNat.
From Flocq Require Import Core.
Import ListNotations.
From Verif Require Import Outcome Bytes CStr Float64 Float64_Proofs Vlr_Model Bounds_Model Bounds_Proofs Coord_Api Coord_Proofs Chipper_Spec Chipper_Lists Index_Cell Index_Temp Index_Scan Index_Out Index_Query Index_Spec Index_ScanProofs Index_Items Index_Groups Index_Filter Index_Load Index_Axis Index_Build Index_Grid Index_QuerySpec Index_Size Index_Divide Index_Cells Index_Answer Index_Query_Thm.
Local Open Scope Z_scope.
Local Notation length := List.length (only parsing).

(** What is asked of the file: bounds with a proper extent in x and y that contain
    every point, strings that fit, no z binning, no other VLR that looks like one
    of the index. *)
Record job_ok (j : job) (pts : list coords) : Prop := {
  jo_x : wide (j_x j); jo_y : wide (j_y j); jo_z : flat (j_z j);
  jo_in : Forall (inside (j_x j) (j_y j) (j_z j)) pts;
  jo_len : lenB pts <= 800000000;
  jo_count : 0 <= j_count j < 2 ^ 32;
  jo_author : no_nul (j_author j) /\ lenB (j_author j) <= 511;
  jo_comment : no_nul (j_comment j) /\ lenB (j_comment j) <= 511;
  jo_date : no_nul (j_date j) /\ lenB (j_date j) <= 511;
  jo_zbin : f64_gt (j_csz j) f64_zero && negb (compare_distance (j_csz j) f64_zero) = false;
  jo_vlrs : forallb not_index (j_vlrs j) = true }.
(** No cell of the grid with more than 13000 points comes right after an empty
    one (such a cell is hidden, see C41).  Files of up to 13000 points have none. *)
Definition uncrowded (j : job) (pts : list coords) : Prop :=
  forall g ps k, make_grid (j_x j) (j_y j) (j_z j) (j_count j) (j_csz j) = Ok (Some g) -> identify_all g pts = Ok ps ->
    0 <= k -> ids_of k ps = [] -> lenB (ids_of (k + 1) ps) <= 13000.
Lemma small_uncrowded j pts : lenB pts <= 13000 -> job_ok j pts -> uncrowded j pts.
Proof.
  intros H J g ps k _ E _ _. pose proof (ids_length (k + 1) ps) as L.
  assert (LP : length ps = length pts). { clear -E. revert ps E. induction pts as [|p pts IH]; intros ps E; cbn [identify_all] in E; [apply Writer_Append.Ok_inj in E; now subst|].
    destruct (identify_cell g p); try discriminate. cbn [obind] in E. destruct (identify_all g pts) as [m| | ]; try discriminate. cbn [obind] in E. apply Writer_Append.Ok_inj in E. subst ps. cbn [List.length]. f_equal. now apply IH. }
  lia.
Qed.

(** The index is built; the query succeeds; it returns every point at most once,
    every point that is in the box by the margin on every axis (no margin where
    the box covers the file), and, on every axis where the common part of box and
    file is not a sliver, no point further than the margin from the box. *)
Theorem C42_query_partial (j : job) (pts : list coords) (bx by_ bz : range) (ix : idx) (cur : Z) :
  job_ok j pts -> uncrowded j pts -> ih_data (ix_h ix) = 43 ->
  touches bx (j_x j) -> touches by_ (j_y j) -> touches bz (j_z j) ->
  exists h vlrs q flag q' s,
    build_index j pts = Ok (Some (h, vlrs)) /\
    set_filter_values h bx by_ bz = Some (q, flag) /\
    index_filter pts vlrs ix q cur None = Ok (idx_of h, q', s) /\
    NoDup (fs_res s) /\
    (forall i, In i (fs_res s) -> 0 <= i < lenB pts /\
       (filters bx (j_x j) -> maybe_in bx (j_x j) (c_x (pt_at pts i))) /\
       (filters by_ (j_y j) -> maybe_in by_ (j_y j) (c_y (pt_at pts i))) /\
       (filters bz (j_z j) -> maybe_in bz (j_z j) (c_z (pt_at pts i)))) /\
    (forall i, 0 <= i < lenB pts ->
       surely_in bx (j_x j) (c_x (pt_at pts i)) -> surely_in by_ (j_y j) (c_y (pt_at pts i)) -> surely_in bz (j_z j) (c_z (pt_at pts i)) ->
       In i (fs_res s)).
Proof.
  intros J U HI TX TY TZ. destruct J as [WX WY FZ PI HL HC HA HM HD HZ HV].
  destruct (make_grid_ok (j_x j) (j_y j) (j_z j) (j_count j) (j_csz j) WX WY FZ HC HZ) as (g & EG & GX & GY & GZ & G1 & G2 & G3 & G4 & G5 & G6 & G7).
  assert (GO : grid_ok g) by (constructor; rewrite ?GX, ?GY; assumption).
  destruct (cells_ok g (j_csz j) (j_maxmem j) pts GO ltac:(lia) ltac:(rewrite GX, GY, GZ; exact PI)) as (ps & s & l & EI & FI & ES & EF & LL & FL).
  assert (LP : length ps = length pts) by (symmetry; exact (Forall2_len _ _ _ FI)).
  destruct (cells_good g pts ps l GO HL LP LL FL) as (CG & CF). pose proof (cells_in_order g pts ps l GO LP FL) as CO.
  pose proof (cells_no_hidden g pts ps l GO HL LP LL FL (fun k => U g ps k EG EI)) as CH.
  pose proof (head_fine j g GO HC HA HM HD) as HO. pose proof (filter_values j g bx by_ bz TX TY TZ GX GY GZ) as FV.
  destruct (bounds_set j g bx by_ bz WX WY FZ TX TY TZ GX GY GZ GO) as (q' & EQ & FB & AX & AY & AZ).
  assert (PA : forall i, 0 <= i < lenB pts -> inside (j_x j) (j_y j) (j_z j) (pt_at pts i)).
  { intros i Hi. rewrite Forall_forall in PI. apply PI. unfold pt_at. apply nth_In. lia. }
  assert (BI : forall vlrs, write_index (j_vlrs j) (head_of j g) l = Ok vlrs -> build_index j pts = Ok (Some (head_of j g, vlrs))).
  { intros vlrs E. unfold build_index. rewrite EG. cbn [obind]. rewrite EI. cbn [obind]. rewrite ES. cbn [obind]. rewrite EF. cbn [obind]. rewrite E. reflexivity. }
  destruct (meet_some (index_bounds (head_of j g)) (filter_bounds q')) as ([|] & EM). { rewrite FB. reflexivity. }
  - destruct (filter_written pts (j_vlrs j) (head_of j g) l ix _ q' cur ltac:(lia) HV HI HO eq_refl eq_refl CF CG (or_introl (conj CO CH)) EQ EM) as (vlrs & st & EW & EFi & ER).
    eexists _, vlrs, _, _, q', st. split; [apply BI; exact EW|]. split; [exact FV|]. split; [exact EFi|]. rewrite ER.
    split; [exact (answer_nodup g pts ps l LP FL q')|]. split.
    + intros i Hi. apply (answer_in g pts ps l LP LL FL) in Hi. destruct Hi as (n & pc & EN & Hi & W). pose proof (ids_range _ _ _ Hi) as IR. assert (IR' : 0 <= i < lenB pts) by lia. split; [exact IR'|].
      destruct (cell_of g pts ps i GO FI IR') as (kx & ky & _ & K & BX & BY & NX & NY). specialize (K _ Hi). rewrite K in W. pose proof (go_cy _ GO). rewrite Z.div_add_l, Z.div_small, Z.add_0_r in W by lia.
      replace ((kx * gr_cy g + ky) mod gr_cy g) with ky in W by (rewrite Z.add_comm, Z.mod_add, Z.mod_small; lia). rewrite GX in NX. rewrite GY in NY.
      exact (want_sound j g pts bx by_ bz WX WY FZ TX TY TZ GO q' kx ky i _ AX AY AZ (PA i IR') BX BY NX NY W).
    + intros i IR SX SY SZ. destruct (cell_of g pts ps i GO FI IR) as (kx & ky & Hi & _ & BX & BY & NX & NY). pose proof (go_cy _ GO). apply (answer_in g pts ps l LP LL FL).
      assert (KB : 0 <= kx * gr_cy g + ky < lenB l) by (rewrite LL; nia). destruct (nth_error l (Z.to_nat (kx * gr_cy g + ky))) as [pc|] eqn:EN; [|apply nth_error_None in EN; lia].
      exists (Z.to_nat (kx * gr_cy g + ky)), pc. split; [exact EN|]. rewrite Z2Nat.id by lia. split; [exact Hi|].
      rewrite Z.div_add_l, Z.div_small, Z.add_0_r by lia. replace ((kx * gr_cy g + ky) mod gr_cy g) with ky by (rewrite Z.add_comm, Z.mod_add, Z.mod_small; lia).
      rewrite GX in NX. rewrite GY in NY. exact (want_complete j g pts bx by_ bz GX GY GO q' kx ky i _ AX AY AZ (PA i IR) BX BY NX NY SX SY SZ).
  - destruct (filter_apart pts (j_vlrs j) (head_of j g) l ix _ q' cur HV HI HO CF EQ EM) as (vlrs & st & EW & EFi & ER).
    eexists _, vlrs, _, _, q', st. split; [apply BI; exact EW|]. split; [exact FV|]. split; [exact EFi|]. rewrite ER. split; [constructor|]. split; [intros i []|].
    intros i IR SX _ _. exfalso. rewrite FB, (bounds_h j g GX GY GZ) in EM. destruct (PA i IR) as (PX & _). rewrite (meet_sure bx (j_x j) _ _ _ WX TX PX SX) in EM. apply Writer_Append.Ok_inj in EM. discriminate.
Qed.

(** ** The hypotheses are met, and the queries that go wrong *)
Definition fz (n : Z) : f64 := f64_of_Z n.
Definition span (a b : Z) : range := mkRange (fz a) (fz b).
Definition pt (a b c : Z) : coords := (fz a, fz b, fz c).
Definition sample_job : job := mkJob (span 0 10) (span 0 10) (span 0 8) 3 [76] [] [50] f64_zero 0 [].
Definition sample_pts : list coords := [pt 1 1 0; pt 5 5 4; pt 9 9 8].
Definition ix_empty : idx := mkIdx (mkIHead 1 2 [] [] [] f64_zero f64_zero f64_zero f64_zero f64_zero f64_zero 43 0 0 0 0) f64_zero f64_zero f64_zero.

(** build, set the filter, query: what a user does *)
Definition run_query (j : job) (pts : list coords) (bx by_ bz : range) : outcome (option (list Z)) :=
  let! r := build_index j pts in
  match r with
  | None => Ok None
  | Some (h, vlrs) =>
      match set_filter_values h bx by_ bz with
      | None => Ok None
      | Some (q, _) => let! (_, _, s) := index_filter pts vlrs ix_empty q 0 None in Ok (Some (fs_res s))
      end
  end.

Lemma span_wide a b : 0 <= a < b -> b <= 1000 -> wide (span a b).
Proof.
  intros H1 H2. destruct (of_Z_ok a ltac:(lia)) as (A1 & A2). destruct (of_Z_ok b ltac:(lia)) as (B1 & B2).
  assert (IZR b <= 1000)%R by (apply (IZR_le b 1000); lia). assert (0 <= IZR a)%R by (apply (IZR_le 0 a); lia). assert (IZR a + 1 <= IZR b)%R by (rewrite <- plus_IZR; apply IZR_le; lia).
  assert (1000 <= bpow radix2 500)%R by (apply Rle_trans with (bpow radix2 10); [cbn; lra|apply bpow_le; lia]). assert (bpow radix2 (-500) <= 1)%R by (apply (bpow_le radix2 (-500) 0); lia).
  constructor; unfold span, fz; cbn [rg_min rg_max]; rewrite ?A2, ?B2; auto; try lra. rewrite !Rabs_pos_eq; lra.
Qed.
Lemma span_within a b n : 0 <= a <= n -> n <= b -> b <= 1000 -> within (span a b) (fz n).
Proof.
  intros H1 H2 H3. destruct (of_Z_ok a ltac:(lia)) as (A1 & A2). destruct (of_Z_ok b ltac:(lia)) as (B1 & B2). destruct (of_Z_ok n ltac:(lia)) as (N1 & N2).
  unfold within, span, fz. cbn [rg_min rg_max]. rewrite A2, B2, N2. split; [exact N1|]. split; apply IZR_le; lia.
Qed.
Lemma sample_inside a b c : 0 <= a <= 10 -> 0 <= b <= 10 -> 0 <= c <= 8 -> inside (span 0 10) (span 0 10) (span 0 8) (pt a b c).
Proof. intros. unfold inside, pt, c_x, c_y, c_z. cbn [fst snd]. split; [|split]; apply span_within; lia. Qed.
Example C42_meets : job_ok sample_job sample_pts /\ uncrowded sample_job sample_pts /\ touches (span 0 6) (span 0 10) /\ filters (span 0 6) (span 0 10) /\
  surely_in (span 0 6) (span 0 10) (fz 5) /\ ~ maybe_in (span 0 6) (span 0 10) (fz 9).
Proof.
  assert (J : job_ok sample_job sample_pts).
  { constructor; unfold sample_job; cbn [j_x j_y j_z j_count j_author j_comment j_date j_csz j_vlrs]; try (apply span_wide; lia); try lia; try reflexivity.
    - apply wide_flat, span_wide; lia.
    - unfold sample_pts. repeat apply Forall_cons; [apply sample_inside; lia|apply sample_inside; lia|apply sample_inside; lia|constructor].
    - unfold sample_pts. cbn [List.length]. lia.
    - split; [unfold no_nul; cbn; lia|cbn [List.length]; lia].
    - split; [unfold no_nul; cbn; lia|cbn [List.length]; lia].
    - split; [unfold no_nul; cbn; lia|cbn [List.length]; lia]. }
  split; [exact J|]. split; [apply small_uncrowded; [unfold sample_pts; cbn [List.length]; lia|exact J]|].
  destruct (of_Z_ok 0 ltac:(lia)) as (Z1 & Z2). destruct (of_Z_ok 6 ltac:(lia)) as (S1 & S2). destruct (of_Z_ok 10 ltac:(lia)) as (T1 & T2). destruct (of_Z_ok 5 ltac:(lia)) as (F1 & F2). destruct (of_Z_ok 9 ltac:(lia)) as (N1 & N2).
  assert (M : (0 <= bpow radix2 (-48) * 10 <= / 2)%R). { change (bpow radix2 (-48)) with (/ 281474976710656)%R. lra. }
  unfold touches, filters, surely_in, maybe_in, margin, span, fz. cbn [rg_min rg_max]. rewrite Z2, S2, T2, F2, N2. rewrite !Rabs_pos_eq by lra. replace (0 + 10)%R with 10%R by ring.
  assert (bpow radix2 (-51) <= 1)%R by (apply (bpow_le radix2 (-51) 0); lia).
  unfold Rmin, Rmax. destruct (Rle_dec 6 10), (Rle_dec 0 0); repeat split; auto; try lra.
Qed.
Example C42_sample : run_query sample_job sample_pts (span 0 6) (span 0 6) (span 0 8) = Ok (Some [0; 1]).
Proof. vm_compute. reflexivity. Qed.

(** "A box query returns exactly the points in the box" is false of the code. *)
Definition in_box (bx by_ bz : range) (p : coords) : bool := between bx (c_x p) && between by_ (c_y p) && between bz (c_z p).
Lemma sample_ok : job_ok sample_job sample_pts. Proof. exact (proj1 C42_meets). Qed.

(** a point on the edge of the box, where that is the edge of a cell, is missed *)
Theorem C42_edge_refuted : exists j pts bx by_ bz ids i, job_ok j pts /\ run_query j pts bx by_ bz = Ok (Some ids) /\
  0 <= i < lenB pts /\ in_box bx by_ bz (pt_at pts i) = true /\ ~ In i ids.
Proof.
  exists sample_job, sample_pts, (span 0 5), (span 0 6), (span 0 8), [0], 1. split; [exact sample_ok|]. split; [vm_compute; reflexivity|]. split; [unfold sample_pts; cbn [List.length]; lia|].
  split; [vm_compute; reflexivity|]. intros [H|[]]. discriminate.
Qed.
(** a box whose common part with the file is a single value of x does not filter on
    x at all: points far outside are returned *)
Theorem C42_sliver_refuted : exists j pts bx by_ bz ids i, job_ok j pts /\ run_query j pts bx by_ bz = Ok (Some ids) /\
  In i ids /\ in_box bx by_ bz (pt_at pts i) = false.
Proof.
  exists sample_job, sample_pts, (span 10 20), (span 0 6), (span 0 8), [0; 1], 0. split; [exact sample_ok|]. split; [vm_compute; reflexivity|]. split; [now left|]. vm_compute. reflexivity.
Qed.
(** a box that lies far from the file makes the query convert a double that does
    not fit to an int *)
Theorem C42_far_refuted : exists j pts bx by_ bz, job_ok j pts /\ verify_range bx && verify_range by_ && verify_range bz = true /\
  run_query j pts bx by_ bz = UB UBFloatToInt.
Proof.
  exists sample_job, sample_pts, (span 3000000000 3000000001), (span 0 6), (span 0 8). split; [exact sample_ok|]. split; vm_compute; reflexivity.
Qed.
(** with z binning, the points of a cell that was not divided by z are all taken to
    lie in the lowest layer: they are missed by a box above it, and returned by a
    box that contains the layer *)
Definition zbin_job : job := mkJob (span 0 10) (span 0 10) (span 0 8) 3 [76] [] [50] (fz 1) 0 [].
Theorem C42_zbin_refuted : (exists j pts bx by_ bz ids i, run_query j pts bx by_ bz = Ok (Some ids) /\
    0 <= i < lenB pts /\ in_box bx by_ bz (pt_at pts i) = true /\ ~ In i ids) /\
  (exists j pts bx by_ bz ids i, run_query j pts bx by_ bz = Ok (Some ids) /\ In i ids /\ in_box bx by_ bz (pt_at pts i) = false).
Proof.
  split.
  - exists zbin_job, sample_pts, (span 0 10), (span 0 10), (span 2 6), [], 1. split; [vm_compute; reflexivity|]. split; [unfold sample_pts; cbn [List.length]; lia|]. split; [vm_compute; reflexivity|]. intros [].
  - exists zbin_job, sample_pts, (span 0 10), (span 0 10), (span 0 6), [0; 1; 2], 2. split; [vm_compute; reflexivity|]. split; [cbn; tauto|]. vm_compute. reflexivity.
Qed.
(** no index is built for a file whose points share one x *)
Theorem C42_flat_refuted : exists j pts, flat (j_x j) /\ wide (j_y j) /\ flat (j_z j) /\ Forall (inside (j_x j) (j_y j) (j_z j)) pts /\ build_index j pts = Ok None.
Proof.
  exists (mkJob (span 5 5) (span 0 10) (span 0 8) 1 [] [] [] f64_zero 0 []), [pt 5 5 5]. cbn [j_x j_y j_z].
  split; [|split; [apply span_wide; lia|split; [apply wide_flat, span_wide; lia|split]]].
  - destruct (of_Z_ok 5 ltac:(lia)) as (F1 & F2). assert (5 <= bpow radix2 500)%R by (apply Rle_trans with (bpow radix2 10); [cbn; lra|apply bpow_le; lia]).
    constructor; unfold span, fz; cbn [rg_min rg_max]; rewrite ?F2; auto; try lra. rewrite Rabs_pos_eq; lra.
  - constructor; [|constructor]. unfold inside, pt, c_x, c_y, c_z. cbn [fst snd]. split; [|split]; apply span_within; lia.
  - vm_compute. reflexivity.
Qed.

Print Assumptions C42_query_partial.
Print Assumptions C42_edge_refuted.
Print Assumptions C42_sliver_refuted.
Print Assumptions C42_far_refuted.
Print Assumptions C42_zbin_refuted.
Print Assumptions C42_flat_refuted.

(** C49: the index iterator pages through the answer of the query.

    [iter_run] (Index_Calls.v) is a history of operator() and advance calls on a new
    iterator, [pages] what it should return: for every call, the next chunk of the
    list the same query returns without an iterator. *)
From Coq Require Import ZArith Reals List Bool Lia Lra.
From Coq Require Import ZifyBool ZifyNat.
Import ListNotations.
From Verif Require Import Outcome Bytes CStr Float64 Float64_Proofs Vlr_Model Bounds_Model Bounds_Proofs Coord_Api Coord_Proofs Chipper_Spec Chipper_Lists Index_Cell Index_Temp Index_Scan Index_Out Index_Query Index_Spec Index_ScanProofs Index_Items Index_Groups Index_Filter Index_Load Index_Axis Index_Build Index_Grid Index_QuerySpec Index_Size Index_Divide Index_Cells Index_Answer Index_Query_Thm Prop_IndexQuery Index_Iter Index_Calls.
Local Open Scope Z_scope.
Local Notation length := List.length (only parsing).

(** The calls are int32 ones that do not overflow ([call_in]); the number of points
    in the index header is not less than that of the points; chunks are not empty. *)
Theorem C49_pages_partial (j : job) (pts : list coords) (bx by_ bz : range) (chunk : Z) :
  job_ok j pts -> uncrowded j pts -> lenB pts <= j_count j -> 1 <= chunk < 2 ^ 32 ->
  touches bx (j_x j) -> touches by_ (j_y j) -> touches bz (j_z j) ->
  exists h vlrs q flag ids,
    build_index j pts = Ok (Some (h, vlrs)) /\
    set_filter_values h bx by_ bz = Some (q, flag) /\
    forall ix cur, ix_h ix = h ->
      (exists q' s, index_filter pts vlrs ix q cur None = Ok (idx_of h, q', s) /\ fs_res s = ids) /\
      (forall cs, Forall call_in cs -> exists ps, iter_run pts vlrs ix q cur (iter_new chunk) cs = Ok ps /\ pages ids chunk 0 cs ps).
Proof.
  intros J U HCN HK TX TY TZ. destruct J as [WX WY FZ PI HL HC HA HM HD HZ HV].
  destruct (make_grid_ok (j_x j) (j_y j) (j_z j) (j_count j) (j_csz j) WX WY FZ HC HZ) as (g & EG & GX & GY & GZ & G1 & G2 & G3 & G4 & G5 & G6 & G7).
  assert (GO : grid_ok g) by (constructor; rewrite ?GX, ?GY; assumption).
  destruct (cells_ok g (j_csz j) (j_maxmem j) pts GO ltac:(lia) ltac:(rewrite GX, GY, GZ; exact PI)) as (ps & s & l & EI & FI & ES & EF & LL & FL).
  assert (LP : length ps = length pts) by (symmetry; exact (Forall2_len _ _ _ FI)).
  destruct (cells_good g pts ps l GO HL LP LL FL) as (CG & CF). pose proof (cells_in_order g pts ps l GO LP FL) as CO.
  pose proof (cells_no_hidden g pts ps l GO HL LP LL FL (fun k => U g ps k EG EI)) as CH.
  pose proof (head_fine j g GO HC HA HM HD) as HO. pose proof (filter_values j g bx by_ bz TX TY TZ GX GY GZ) as FV.
  destruct (bounds_set j g bx by_ bz WX WY FZ TX TY TZ GX GY GZ GO) as (q' & EQ & FB & _).
  destruct (write_index_ok (j_vlrs j) (head_of j g) l CF) as (gs & vs & EW & EN & EC & GF & GS0). specialize (GS0 CO CH).
  assert (BI : build_index j pts = Ok (Some (head_of j g, j_vlrs j ++ [head_vlr (head_of j g)] ++ vs))).
  { unfold build_index. rewrite EG. cbn [obind]. rewrite EI. cbn [obind]. rewrite ES. cbn [obind]. rewrite EF. cbn [obind]. rewrite EW. reflexivity. }
  pose proof (set_bounds_again _ _ _ EQ) as EQ2. assert (HL2 : lenB pts < 2 ^ 31) by lia.
  assert (VE : (j_vlrs j ++ [head_vlr (head_of j g)]) ++ vs = j_vlrs j ++ [head_vlr (head_of j g)] ++ vs) by now rewrite <- app_assoc.
  destruct (meet_some (index_bounds (head_of j g)) (filter_bounds q')) as ([|] & EM). { rewrite FB. reflexivity. }
  - destruct (groups_whole g pts ps l q' LP HL2 FL gs EC) as (GW & GB).
    assert (GA : Forall (group_fine pts q') gs).
    { rewrite Forall_forall in *. intros x Hx. destruct (GF x Hx) as (X0 & X1 & X2 & X3 & _). assert (IN : forall p, In p (map fst l) -> 0 <= fst p < 2 ^ 31 /\ 0 <= snd p < 2 ^ 31).
      { intros p Hp. apply in_map_iff in Hp. destruct Hp as (c & <- & Hc). destruct (CG c Hc) as (_ & K). exact K. }
      split; [|split; [|split]].
      - apply Forall_forall. intros c Hc. apply CG. assert (K : In c (filter nonempty l)) by (rewrite <- EC; unfold cells_of; apply in_flat_map; eauto). apply filter_In in K. tauto.
      - apply IN in X1. apply IN in X2. cbn [fst snd] in X1, X2. unfold head_in. tauto.
      - left. now apply GS0.
      - now apply GW. }
    assert (IDS : conf (flat_map (g_items pts q') gs) = flat_map (conform pts q') (filter nonempty l)).
    { rewrite <- EC, <- conf_cells. f_equal. unfold cells_of, g_items. clear. induction gs as [|x gs IH]; [reflexivity|]. cbn [flat_map]. now rewrite flat_map_app, IH. }
    eexists _, _, _, _, (conf (flat_map (g_items pts q') gs)). split; [exact BI|]. split; [exact FV|]. intros ix cur HI. split.
    + destruct (filter_written pts (j_vlrs j) (head_of j g) l ix _ q' cur HL2 HV ltac:(rewrite HI; reflexivity) HO eq_refl eq_refl CF CG (or_introl (conj CO CH)) EQ EM) as (vlrs & st & EW2 & EFi & ER).
      rewrite EW in EW2. apply Writer_Append.Ok_inj in EW2. subst vlrs. exists q', st. split; [exact EFi|]. rewrite ER. now symmetry.
    + intros cs HCS. rewrite <- VE. pose proof (conf_le (flat_map (g_items pts q') gs)) as CL.
      apply (run_pages pts (j_vlrs j) (head_of j g) gs vs q' HL2 HV HO eq_refl eq_refl eq_refl EN EQ2 GA ltac:(unfold head_of; cbn [ih_count]; lia) ltac:(lia) EM ltac:(lia) cs ix _ (iter_new chunk) cur [] (flat_map (g_items pts q') gs)); [|exact (proj1 HK)|exact HCS].
      split; [reflexivity|]. split; [reflexivity|]. split; [reflexivity|]. split; [exact HI|]. split; [exact EQ|]. left. split; [reflexivity|]. split; [now repeat split|reflexivity].
  - eexists _, _, _, _, []. split; [exact BI|]. split; [exact FV|]. intros ix cur HI. split.
    + destruct (filter_apart pts (j_vlrs j) (head_of j g) l ix _ q' cur HV ltac:(rewrite HI; reflexivity) HO CF EQ EM) as (vlrs & st & EW2 & EFi & ER).
      rewrite EW in EW2. apply Writer_Append.Ok_inj in EW2. subst vlrs. exists q', st. split; [exact EFi|exact ER].
    + intros cs HCS. rewrite <- VE. apply (run_apart pts (j_vlrs j) (head_of j g) vs q' HV HO eq_refl eq_refl eq_refl EQ2 EM cs ix _ (iter_new chunk) cur HI EQ); [now left|reflexivity].
Qed.

(** ** Consequences *)

Lemma pages_advance L k n : 1 <= k -> forall pos ps, 0 <= pos <= lenB L -> pages L k pos (repeat (Advance 1) n) ps ->
  concat ps = firstn (n * Z.to_nat k) (skipn (Z.to_nat pos) L) /\ Forall (fun p => lenB p <= k) ps.
Proof.
  intros HK. induction n as [|n IH]; intros pos ps HP H; cbn [repeat] in H.
  - inversion H; subst. split; [reflexivity|constructor].
  - inversion H as [|? ? ? p ps' pos' EP E1 E2 HR]; subst. cbn [target] in *. change (0 <? 1) with true in *. cbv iota in *. replace (pos + (1 - 1)) with pos in * by lia.
    set (p := firstn (Z.to_nat k) (skipn (Z.to_nat pos) L)) in *.
    assert (LPP : lenB p <= k) by (unfold p; rewrite firstn_length; lia).
    assert (LP2 : length p = Nat.min (Z.to_nat k) (length L - Z.to_nat pos)) by (unfold p; now rewrite firstn_length, skipn_length).
    assert (PB : pos' = pos + lenB p). { destruct p as [|a p'] eqn:Ep; [destruct (E2 eq_refl); cbn [List.length] in *; lia|]. rewrite E1 by discriminate. lia. }
    destruct (IH pos' ps') as (C1 & C2); [lia|exact HR|]. split; [|constructor; assumption]. cbn [concat Nat.mul]. rewrite C1.
    assert (SPL : skipn (Z.to_nat pos) L = p ++ skipn (Z.to_nat pos') L).
    { unfold p. rewrite <- (firstn_skipn (Z.to_nat k) (skipn (Z.to_nat pos) L)) at 1. f_equal. rewrite PB. destruct (Nat.le_gt_cases (Z.to_nat k) (length L - Z.to_nat pos)) as [K|K].
      - replace (Z.to_nat (pos + lenB p)) with (Z.to_nat k + Z.to_nat pos)%nat by lia. rewrite <- skipn_skipn. reflexivity.
      - rewrite !skipn_all2; [reflexivity|lia|rewrite skipn_length; lia]. }
    set (m := (n * Z.to_nat k)%nat) in *. clearbody m. rewrite SPL. rewrite firstn_app. destruct (Nat.le_gt_cases (Z.to_nat k) (length L - Z.to_nat pos)) as [K|K].
    + rewrite (firstn_all2 p) by lia. f_equal. f_equal. lia.
    + rewrite (firstn_all2 p) by lia. rewrite (skipn_all2 L) by lia. now rewrite !firstn_nil.
Qed.

(** Advancing by one again and again yields the whole answer, once, in order, in
    pages of at most [chunk]. *)
Theorem C49_enumerate_partial (j : job) (pts : list coords) (bx by_ bz : range) (chunk : Z) :
  job_ok j pts -> uncrowded j pts -> lenB pts <= j_count j -> 1 <= chunk < 2 ^ 32 ->
  touches bx (j_x j) -> touches by_ (j_y j) -> touches bz (j_z j) ->
  exists h vlrs q flag ids,
    build_index j pts = Ok (Some (h, vlrs)) /\ set_filter_values h bx by_ bz = Some (q, flag) /\
    forall ix cur, ix_h ix = h ->
      (exists q' s, index_filter pts vlrs ix q cur None = Ok (idx_of h, q', s) /\ fs_res s = ids) /\
      forall n, exists ps, iter_run pts vlrs ix q cur (iter_new chunk) (repeat (Advance 1) n) = Ok ps /\
        Forall (fun p => lenB p <= chunk) ps /\ concat ps = firstn (n * Z.to_nat chunk) ids.
Proof.
  intros J U HCN HK TX TY TZ. destruct (C49_pages_partial j pts bx by_ bz chunk J U HCN HK TX TY TZ) as (h & vlrs & q & flag & ids & B & F & H).
  exists h, vlrs, q, flag, ids. split; [exact B|]. split; [exact F|]. intros ix cur HI. destruct (H ix cur HI) as (H1 & H2). split; [exact H1|]. intros n.
  destruct (H2 (repeat (Advance 1) n)) as (ps & E & P). { apply Forall_forall. intros c Hc. apply repeat_spec in Hc. subst c. cbn [call_in]. lia. }
  exists ps. split; [exact E|]. destruct (pages_advance ids chunk n ltac:(lia) 0 ps ltac:(lia) P) as (C1 & C2). split; [exact C2|exact C1].
Qed.

(** ** The hypotheses are met; calls that go wrong *)
Example C49_meets : job_ok sample_job sample_pts /\ uncrowded sample_job sample_pts /\ lenB sample_pts <= j_count sample_job /\ touches (span 0 6) (span 0 10).
Proof. destruct C42_meets as (A & B & C & _). split; [exact A|]. split; [exact B|]. split; [unfold sample_pts, sample_job; cbn [List.length j_count]; lia|exact C]. Qed.

(** build, set the filter, make an iterator, call it *)
Definition run_calls (j : job) (pts : list coords) (mk : ihead -> option query) (chunk : Z) (cs : list icall) : outcome (option (list (list Z))) :=
  let! r := build_index j pts in
  match r with
  | None => Ok None
  | Some (h, vlrs) =>
      match mk h with
      | None => Ok None
      | Some q => let! ps := iter_run pts vlrs (idx_of h) q 0 (iter_new chunk) cs in Ok (Some ps)
      end
  end.
Definition by_values (bx by_ bz : range) (h : ihead) : option query := match set_filter_values h bx by_ bz with Some (q, _) => Some q | None => None end.
(** index.cpp:2062-2072, 2083-2091 with 1751-1773: the constructors from a box set
    the filter as it is *)
Definition by_box (bx by_ bz : range) (h : ihead) : option query := Some (mkQuery (axis_of bx false) (axis_of by_ false) (axis_of bz false)).

Example C49_sample : run_calls sample_job sample_pts (by_values (span 0 10) (span 0 10) (span 0 8)) 2 [At 0; Advance 1; Advance 1; At 1; Advance (-1); At 2] =
  Ok (Some [[0; 1]; [2]; []; [1; 2]; [2]; [2]]).
Proof. vm_compute. reflexivity. Qed.
Example C49_sample_pages : pages [0; 1; 2] 2 0 [At 0; Advance 1; Advance 1; At 1; Advance (-1); At 2] [[0; 1]; [2]; []; [1; 2]; [2]; [2]].
Proof.
  apply (pages_cons _ _ _ _ _ _ _ 2); [reflexivity|reflexivity|discriminate|]. apply (pages_cons _ _ _ _ _ _ _ 3); [reflexivity|reflexivity|discriminate|].
  apply (pages_cons _ _ _ _ _ _ _ 3); [reflexivity|intros K; contradiction|intros _; now left|]. apply (pages_cons _ _ _ _ _ _ _ 3); [reflexivity|reflexivity|discriminate|].
  apply (pages_cons _ _ _ _ _ _ _ 3); [reflexivity|reflexivity|discriminate|]. apply (pages_cons _ _ _ _ _ _ _ 3); [reflexivity|reflexivity|discriminate|]. constructor.
Qed.

(** chunks of no points are not empty *)
Theorem C49_zero_refuted : exists j pts mk p, job_ok j pts /\ run_calls j pts mk 0 [At 0] = Ok (Some [p]) /\ p <> [].
Proof. exists sample_job, sample_pts, (by_values (span 0 10) (span 0 10) (span 0 8)), [0]. split; [exact sample_ok|]. split; [vm_compute; reflexivity|discriminate]. Qed.
(** an iterator made from a box that contains the file by far is undefined: the
    filter is not clipped to the bounds of the file, as it is elsewhere *)
Theorem C49_box_refuted : exists j pts bx, job_ok j pts /\ (forall i, 0 <= i < lenB pts -> in_box bx bx bx (pt_at pts i) = true) /\
  (exists ps, run_calls j pts (by_values bx bx bx) 2 [At 0] = Ok (Some ps)) /\ run_calls j pts (by_box bx bx bx) 2 [At 0] = UB UBFloatToInt.
Proof.
  exists sample_job, sample_pts, (mkRange (fz (-1000000000000)) (fz 1000000000000)). split; [exact sample_ok|]. split; [|split; [eexists; vm_compute; reflexivity|vm_compute; reflexivity]].
  intros i Hi. assert (K : i = 0 \/ i = 1 \/ i = 2) by (unfold sample_pts in Hi; cbn [List.length] in Hi; lia). destruct K as [->|[->| ->]]; vm_compute; reflexivity.
Qed.

Print Assumptions C49_pages_partial.
Print Assumptions C49_enumerate_partial.
Print Assumptions C49_zero_refuted.
Print Assumptions C49_box_refuted.

(** Histories of calls of an index iterator. *)
From Coq Require Import ZArith List Bool Lia Permutation Sorted.
From Coq Require Import ZifyBool ZifyNat.
Import ListNotations.
From Verif Require Import Outcome Bytes CStr Float64 Vlr_Model Bounds_Model Chipper_Spec Chipper_Lists Index_Cell Index_Temp Index_Scan Index_Out Index_Query Index_Spec Index_ScanProofs Index_Items Index_Groups Index_Filter Index_Load Index_Build Index_Divide Index_Cells Index_Iter.
Local Open Scope Z_scope.
Local Notation length := List.length (only parsing).

(** ** The calls *)

(** operator()(n) and advance(n) *)
Inductive icall := At (n : Z) | Advance (n : Z).
(** index.cpp:2128-2154 over a history: the index, the query, the reader and the
    iterator are those the last call left *)
Fixpoint iter_run (pts : list coords) (vlrs : list vlr) (ix : idx) (q : query) (cur : Z) (t : iter) (cs : list icall) : outcome (list (list Z)) :=
  match cs with
  | [] => Ok []
  | c :: cs =>
      let! (ix, q, s) := (match c with At n => iter_at pts vlrs ix q cur t n | Advance n => iter_advance pts vlrs ix q cur t n end) in
      match fs_it s with
      | None => UB UBNull
      | Some t => let! ps := iter_run pts vlrs ix q (fs_cur s) t cs in Ok (fs_res s :: ps)
      end
  end.

(** ** What they should return *)

(** where a call starts, from the number of answers passed so far *)
Definition target (c : icall) (pos : Z) : Z :=
  match c with At n => n | Advance n => pos + (if 0 <? n then n - 1 else n) end.
(** [pages L k pos cs ps]: each call returns the [k] answers of [L] from its
    target on, and the next position is behind them; a call that returns nothing
    leaves the position where it was or at the end. *)
Inductive pages (L : list Z) (k : Z) : Z -> list icall -> list (list Z) -> Prop :=
| pages_nil pos : pages L k pos [] []
| pages_cons pos c cs p ps pos' :
    p = firstn (Z.to_nat k) (skipn (Z.to_nat (target c pos)) L) ->
    (p <> [] -> pos' = Z.max 0 (target c pos) + lenB p) -> (p = [] -> pos' = pos \/ pos' = lenB L) ->
    pages L k pos' cs ps -> pages L k pos (c :: cs) (p :: ps).

Lemma set_bounds_again ix q q' : set_cell_bounds ix q = Ok q' -> set_cell_bounds ix q' = Ok q'.
Proof.
  intros H. pose proof (set_bounds_off _ _ _ H) as (O1 & O2 & O3 & FB).
  assert (R : ax_r (q_x q') = ax_r (q_x q) /\ ax_r (q_y q') = ax_r (q_y q) /\ ax_r (q_z q') = ax_r (q_z q)).
  { unfold filter_bounds in FB. split; [exact (f_equal (fun l => nth 0 l (ax_r (q_x q))) FB)|]. split; [exact (f_equal (fun l => nth 1 l (ax_r (q_x q))) FB)|exact (f_equal (fun l => nth 2 l (ax_r (q_x q))) FB)]. }
  destruct R as (R1 & R2 & R3).
  assert (AC : forall a b lo hi, ax_r b = ax_r a -> ax_off b = ax_off a -> axis_cells b lo hi = axis_cells a lo hi) by (intros a b lo hi E1 E2; unfold axis_cells; now rewrite E1, E2).
  rewrite <- H. unfold set_cell_bounds. rewrite R1, R2, R3.
  rewrite (AC (q_x q) (q_x q') _ _ R1 O1). destruct (axis_cells (q_x q) _ _) as [ax| |]; cbn [obind]; try reflexivity.
  rewrite (AC (q_y q) (q_y q') _ _ R2 O2). destruct (axis_cells (q_y q) _ _) as [ay| |]; cbn [obind]; try reflexivity.
  destruct (_ && _); rewrite (AC (q_z q) (q_z q') _ _ R3 O3); reflexivity.
Qed.

Section Calls.
Variables (pts : list coords) (base : list vlr) (h : ihead) (gs : list group) (vs : list vlr) (q' : query).
Hypothesis HL : lenB pts < 2 ^ 31.
Hypothesis HB : forallb not_index base = true.
Hypothesis HO : ihead_ok h.
Hypothesis HD : ih_data h = 43.
Hypothesis HV : with_counts h = true.
Hypothesis HV2 : iter_version h = true.
Hypothesis HE : encodes gs vs.
Hypothesis HQ : set_cell_bounds (idx_of h) q' = Ok q'.
Let W : list vlr := base ++ [head_vlr h].
Let vlrs : list vlr := W ++ vs.

(** the loop from the first VLR to the record of the index header *)
Lemma loop_head ix q s : ix_h ix = h -> 
  filter_loop (S (length vlrs)) pts vlrs ix q 0 s = filter_loop (S (S (length vs))) pts vlrs ix q (lenB base) s.
Proof.
  intros HI. assert (LV : S (length vlrs) = (length base + S (S (length vs)))%nat) by (unfold vlrs, W; rewrite !app_length; cbn [List.length]; lia). rewrite LV.
  pose proof (skip_loop pts ix q ([head_vlr h] ++ vs) base HB ltac:(rewrite HI; exact HD) (S (S (length vs))) [] s) as SK. cbn [app] in SK.
  assert (EV : vlrs = base ++ head_vlr h :: vs) by (unfold vlrs, W; now rewrite <- app_assoc). rewrite EV. exact SK.
Qed.

(** *** The box does not meet the file *)
Lemma apart_call ix q t cur : bounds_intersects (index_bounds h) (filter_bounds q') = Ok false -> ix_h ix = h -> set_cell_bounds (idx_of h) q = Ok q' -> it_vlr t = 0 \/ it_vlr t = lenB base ->
  exists ix2 q2 s t2, index_filter pts vlrs ix q cur (Some t) = Ok (ix2, q2, s) /\ fs_it s = Some t2 /\ fs_res s = [] /\ ix_h ix2 = h /\ set_cell_bounds (idx_of h) q2 = Ok q' /\
    (it_vlr t2 = 0 \/ it_vlr t2 = lenB base) /\ it_found t2 = it_found t /\ it_chunk t2 = it_chunk t.
Proof.
  intros HM HI HS HT. unfold index_filter. destruct (_ <? _).
  - eexists _, _, _, t. split; [reflexivity|]. split; [reflexivity|]. split; [reflexivity|]. split; [exact HI|]. split; [exact HS|]. split; [exact HT|]. split; reflexivity.
  - set (s0 := mkF [] cur (Some t)).
    assert (E : forall n, filter_loop (S n) pts vlrs ix q (lenB base) s0 = Ok (idx_of h, q', s0, lenB base)).
    { intros n. cbn [filter_loop]. replace (lenB vlrs <=? lenB base) with false by (unfold vlrs, W; rewrite !app_length; cbn [List.length]; lia).
      assert (NE : nth_error vlrs (Z.to_nat (lenB base)) = Some (head_vlr h)).
      { unfold vlrs, W. rewrite <- app_assoc. rewrite nth_error_app2 by lia. replace (Z.to_nat (lenB base) - length base)%nat with 0%nat by lia. reflexivity. }
      rewrite NE, head_user. change (v_id (head_vlr h) =? 42) with true. cbv iota. rewrite (load_ok ix h HO). cbn [obind negb]. rewrite HS. cbn [obind].
      change (index_bounds (ix_h (idx_of h))) with (index_bounds h). rewrite HM. reflexivity. }
    assert (EL : filter_loop (S (length vlrs)) pts vlrs ix q (it_vlr t) s0 = Ok (idx_of h, q', s0, lenB base)).
    { destruct HT as [-> | ->]; [rewrite (loop_head ix q s0 HI)|]; apply E. }
    rewrite EL. cbn [obind]. eexists _, _, _, _. split; [reflexivity|]. split; [reflexivity|]. split; [reflexivity|]. split; [reflexivity|]. split; [exact HQ|]. split; [right; reflexivity|]. split; reflexivity.
Qed.
Lemma run_apart : bounds_intersects (index_bounds h) (filter_bounds q') = Ok false -> forall cs ix q t cur, ix_h ix = h -> set_cell_bounds (idx_of h) q = Ok q' -> it_vlr t = 0 \/ it_vlr t = lenB base -> it_found t = 0 ->
  exists ps, iter_run pts vlrs ix q cur t cs = Ok ps /\ pages [] (it_chunk t) 0 cs ps.
Proof.
  intros HM. induction cs as [|c cs IH]; intros ix q t cur HI HS HT H0; [exists []; split; [reflexivity|constructor]|].
  assert (EC : exists n, (match c with At n => iter_at pts vlrs ix q cur t n | Advance n => iter_advance pts vlrs ix q cur t n end) = iter_at pts vlrs ix q cur t n).
  { destruct c as [n|n]; [now exists n|]. unfold iter_advance. eauto. }
  destruct EC as (n & EC). cbn [iter_run]. rewrite EC. unfold iter_at.
  set (t1 := if n <=? 0 then _ else _). assert (T1 : (it_vlr t1 = 0 \/ it_vlr t1 = lenB base) /\ it_found t1 = 0 /\ it_chunk t1 = it_chunk t).
  { unfold t1. destruct (n <=? 0); [split; [now left|split; reflexivity]|]. destruct (n <? it_found t); [split; [now left|split; reflexivity]|]. split; [exact HT|]. split; [exact H0|reflexivity]. }
  destruct T1 as (T1 & T2 & T3). destruct (apart_call ix q t1 cur HM HI HS T1) as (ix2 & q2 & s & t2 & E & I & R & I2 & S2 & V2 & F2 & C2).
  rewrite E. cbn [obind]. rewrite I. destruct (IH ix2 q2 t2 (fs_cur s) I2 S2 V2 ltac:(lia)) as (ps & E2 & PG). rewrite E2. exists (fs_res s :: ps). split; [reflexivity|].
  rewrite C2, T3 in PG. apply (pages_cons _ _ _ _ _ _ _ 0); [rewrite R, skipn_nil, firstn_nil; reflexivity|intros K; contradiction|intros _; now left|exact PG].
Qed.

(** *** The box meets the file *)
Hypothesis HF : Forall (group_fine pts q') gs.
Let all : list item := flat_map (g_items pts q') gs.
Let L : list Z := conf all.
Hypothesis HN : lenB all <= ih_count h.
Hypothesis HN2 : lenB all < 2 ^ 31.

Definition placed_at (ix : idx) (q : query) (t : iter) (A R : list item) : Prop :=
  A ++ R = all /\ it_found t = lenB (conf A) /\ it_total t + lenB R = lenB all /\ ix_h ix = h /\ set_cell_bounds (idx_of h) q = Ok q' /\
  ((it_vlr t = 0 /\ fresh t /\ A = []) \/
   (ix = idx_of h /\ q = q' /\ exists vs1 vs2 gs2, vs = vs1 ++ vs2 /\ encodes gs2 vs2 /\ Forall (group_fine pts q') gs2 /\ it_vlr t = lenB (W ++ vs1) /\ at_groups pts q' gs2 t R)).

Lemma loop_at ix q t cur A R : bounds_intersects (index_bounds h) (filter_bounds q') = Ok true -> placed_at ix q t A R -> 0 <= it_adv t -> 1 <= it_chunk t ->
  exists s' t' B R' vs1 vs2 gs2, filter_loop (S (length vlrs)) pts vlrs ix q (it_vlr t) (mkF [] cur (Some t)) = Ok (idx_of h, q', s', lenB (W ++ vs1)) /\ fs_it s' = Some t' /\
    prog t B (fs_res s') t' /\ B ++ R' = R /\ it_total t' + lenB R' = lenB all /\ (full s' = false -> R' = []) /\
    vs = vs1 ++ vs2 /\ encodes gs2 vs2 /\ Forall (group_fine pts q') gs2 /\ at_groups pts q' gs2 t' R'.
Proof.
  intros HM (P1 & P2 & P3 & P4 & P5 & P6) HA HK. set (s0 := mkF [] cur (Some t)). assert (F0 : full s0 = false) by (unfold full, s0; cbn [fs_it fs_res List.length]; lia).
  assert (PS : prog t [] (fs_res s0) t) by (apply prog_start; lia).
  destruct P6 as [(T1 & T2 & ->)|(-> & -> & vs1 & vs2 & gs2 & V1 & V2 & V3 & V4 & V5)].
  - rewrite T1, (loop_head ix q s0 P4). cbn [app] in P1. subst R. cbn [filter_loop].
    replace (lenB vlrs <=? lenB base) with false by (unfold vlrs, W; rewrite !app_length; cbn [List.length]; lia).
    assert (NE : nth_error vlrs (Z.to_nat (lenB base)) = Some (head_vlr h)).
    { unfold vlrs, W. rewrite <- app_assoc. rewrite nth_error_app2 by lia. replace (Z.to_nat (lenB base) - length base)%nat with 0%nat by lia. reflexivity. }
    rewrite NE, head_user. change (v_id (head_vlr h) =? 42) with true. cbv iota. rewrite (load_ok ix h HO). cbn [obind negb]. rewrite P5. cbn [obind].
    change (index_bounds (ix_h (idx_of h))) with (index_bounds h). rewrite HM. cbn [obind negb fs_it s0]. change (ix_h (idx_of h)) with h. rewrite HV2. cbn [negb].
    replace (lenB base + 1) with (lenB W) by (unfold W; rewrite app_length; cbn [List.length]; lia).
    destruct (data_loop_iter pts q' HL (idx_of h) gs vs t HA HV HD HE HF (S (length vs)) W s0 t [] all ltac:(lia) eq_refl F0 PS (at_groups_fresh pts q' gs t T2)) as (s' & t' & B & R' & vs1 & vs2 & gs2 & E & I & P & AR & T & FU & X).
    exists s', t', B, R', vs1, vs2, gs2. split; [exact E|]. split; [exact I|]. split; [exact P|]. split; [exact AR|]. split; [lia|]. split; [exact FU|exact X].
  - rewrite V4. unfold vlrs. rewrite V1, app_assoc.
    destruct (data_loop_iter pts q' HL (idx_of h) gs2 vs2 t HA HV HD V2 V3 (S (length ((W ++ vs1) ++ vs2))) (W ++ vs1) s0 t [] R) as (s' & t' & B & R' & w1 & w2 & gs3 & E & I & P & AR & T & FU & Y1 & Y2).
    { rewrite app_length. lia. } { reflexivity. } { exact F0. } { exact PS. } { exact V5. }
    exists s', t', B, R', (vs1 ++ w1), w2, gs3. split; [rewrite E; f_equal; f_equal; now rewrite app_assoc|]. split; [exact I|]. split; [exact P|]. split; [exact AR|]. split; [lia|]. split; [exact FU|]. split; [now rewrite Y1, app_assoc|exact Y2].
Qed.

Lemma call_at ix q t cur A R : bounds_intersects (index_bounds h) (filter_bounds q') = Ok true -> placed_at ix q t A R -> 1 <= it_adv t <= 2 ^ 31 -> 1 <= it_chunk t ->
  exists ix2 q2 s t2 A2 R2, index_filter pts vlrs ix q cur (Some t) = Ok (ix2, q2, s) /\ fs_it s = Some t2 /\ it_chunk t2 = it_chunk t /\ placed_at ix2 q2 t2 A2 R2 /\
    fs_res s = firstn (Z.to_nat (it_chunk t)) (skipn (Z.to_nat (it_adv t - 1)) (conf R)) /\
    (fs_res s <> [] -> it_found t2 = it_found t + (it_adv t - 1) + lenB (fs_res s)) /\ (fs_res s = [] -> it_found t2 = it_found t \/ it_found t2 = lenB L).
Proof.
  intros HM HP HA HK. pose proof HP as (P1 & P2 & P3 & P4 & P5 & P6). unfold index_filter. rewrite P4.
  assert (LE : lenB A + lenB R = lenB all) by (rewrite <- P1, app_length; lia). rewrite Z.mod_small by lia.
  destruct (ih_count h <? it_adv t + it_total t) eqn:GU.
  - eexists _, _, _, t, A, R. split; [reflexivity|]. split; [reflexivity|]. split; [reflexivity|]. split; [exact HP|]. cbn [fs_res]. pose proof (conf_le R).
    rewrite skipn_all2 by lia. rewrite firstn_nil. split; [reflexivity|]. split; [intros K; contradiction|]. intros _. now left.
  - destruct (loop_at ix q t cur A R HM HP ltac:(lia) HK) as (s' & t' & B & R' & vs1 & vs2 & gs2 & E & I & (Q1 & Q2 & Q3 & Q4 & Q5) & AR & T & FU & V1 & V2 & V3 & V4).
    cbv beta iota in E. cbn [fs_it]. rewrite E. cbn [obind]. set (t2 := mkIter (it_chunk t') (it_adv t') (lenB (W ++ vs1)) (it_pos t') (it_total t') (it_cell t') (it_vpts t') (it_found t')).
    eexists _, _, _, t2, (A ++ B), R'. split; [reflexivity|]. split; [unfold with_it; cbn [fs_it]; rewrite I; reflexivity|]. split; [exact Q4|]. cbn [fs_res with_it]. split; [|split; [|split]].
    + unfold placed_at. rewrite <- app_assoc, AR, conf_app, app_length. split; [exact P1|]. split; [cbn [t2 it_found]; lia|]. split; [exact T|]. split; [reflexivity|]. split; [exact HQ|].
      right. split; [reflexivity|]. split; [reflexivity|]. exists vs1, vs2, gs2. split; [exact V1|]. split; [exact V2|]. split; [exact V3|]. split; [reflexivity|]. clear - V4. destruct gs2; [exact V4|]. exact V4.
    + rewrite <- AR, conf_app. rewrite Q1. rewrite Q1 in Q5. set (n := Z.to_nat (it_adv t - 1)) in *. rewrite skipn_app.
      assert (FS : full s' = (it_chunk t <=? lenB (fs_res s'))) by (unfold full; rewrite I, Q4; reflexivity). rewrite Q1 in FS.
      destruct (full s') eqn:F.
      * rewrite skipn_length in *. replace (n - length (conf B))%nat with 0%nat by lia. cbn [skipn]. rewrite firstn_app. rewrite skipn_length.
        replace (Z.to_nat (it_chunk t) - (length (conf B) - n))%nat with 0%nat by lia. rewrite firstn_O, app_nil_r. symmetry. apply firstn_all2. rewrite skipn_length. lia.
      * rewrite (FU eq_refl). cbn [conf filter map]. rewrite skipn_nil, app_nil_r. symmetry. apply firstn_all2. lia.
    + intros NE. cbn [t2 it_found]. rewrite Q1 in *. rewrite skipn_length. assert (length (skipn (Z.to_nat (it_adv t - 1)) (conf B)) <> 0%nat) by (intros X; apply NE; now apply length_zero_iff_nil). rewrite skipn_length in H. lia.
    + intros E0. right. cbn [t2 it_found]. assert (full s' = false). { unfold full. rewrite I, Q4, E0. cbn [List.length]. lia. }
      rewrite (FU H), app_nil_r in AR. subst B. unfold L. rewrite <- P1, conf_app, app_length. lia.
Qed.

Definition call_in (c : icall) : Prop :=
  match c with At n => - 2 ^ 31 <= n < 2 ^ 31 | Advance n => - 2 ^ 30 <= n <= 2 ^ 30 end.

Lemma found_le ix q t A R : placed_at ix q t A R -> 0 <= it_found t <= lenB L.
Proof. intros (P1 & P2 & _). unfold L. rewrite <- P1, conf_app, app_length. lia. Qed.

Lemma iter_at_ok ix q t cur A R n : bounds_intersects (index_bounds h) (filter_bounds q') = Ok true -> placed_at ix q t A R -> - 2 ^ 31 <= n < 2 ^ 31 -> 1 <= it_chunk t ->
  exists ix2 q2 s t2 A2 R2, iter_at pts vlrs ix q cur t n = Ok (ix2, q2, s) /\ fs_it s = Some t2 /\ it_chunk t2 = it_chunk t /\ placed_at ix2 q2 t2 A2 R2 /\
    fs_res s = firstn (Z.to_nat (it_chunk t)) (skipn (Z.to_nat n) L) /\
    (fs_res s <> [] -> it_found t2 = Z.max 0 n + lenB (fs_res s)) /\ (fs_res s = [] -> it_found t2 = it_found t \/ it_found t2 = lenB L).
Proof.
  intros HM HP HR HK. pose proof HP as (P1 & P2 & P3 & P4 & P5 & P6). unfold iter_at.
  assert (RS : forall a, placed_at ix q (set_adv (reset_position t) a) [] all).
  { intros a. split; [reflexivity|]. split; [reflexivity|]. split; [cbn [it_total set_adv reset_position]; lia|]. split; [exact P4|]. split; [exact P5|]. left. split; [reflexivity|]. split; [now repeat split|reflexivity]. }
  destruct (Z.leb_spec n 0) as [N|N]; [|destruct (Z.ltb_spec n (it_found t)) as [M|M]].
  - destruct (call_at ix q (set_adv (reset_position t) 1) cur [] all HM (RS 1)) as (ix2 & q2 & s & t2 & A2 & R2 & E & I & C & PL & ER & F1 & F2); [cbn [it_adv set_adv]; lia|exact HK|].
    cbn [it_adv it_found it_chunk set_adv reset_position] in *. change (Z.to_nat (1 - 1)) with 0%nat in ER. exists ix2, q2, s, t2, A2, R2. split; [exact E|]. split; [exact I|]. split; [exact C|]. split; [exact PL|].
    split; [rewrite ER; replace (Z.to_nat n) with 0%nat by lia; reflexivity|]. split; [intros K; rewrite (F1 K); lia|]. intros K. right. destruct (F2 K) as [X|X]; [|exact X].
    cbn [skipn] in ER. rewrite K in ER. fold L in ER. destruct L as [|a l]; [exact X|]. destruct (Z.to_nat (it_chunk t)) eqn:Y; [lia|discriminate ER].
  - pose proof (found_le _ _ _ _ _ HP) as FL. destruct (call_at ix q (set_adv (reset_position t) (n + 1)) cur [] all HM (RS (n + 1))) as (ix2 & q2 & s & t2 & A2 & R2 & E & I & C & PL & ER & F1 & F2); [cbn [it_adv set_adv]; lia|exact HK|].
    cbn [it_adv it_found it_chunk set_adv reset_position] in *. replace (n + 1 - 1) with n in * by lia. exists ix2, q2, s, t2, A2, R2. split; [exact E|]. split; [exact I|]. split; [exact C|]. split; [exact PL|].
    split; [exact ER|]. split; [intros K; rewrite (F1 K); lia|]. intros K. exfalso. rewrite K in ER. fold L in ER. apply (f_equal (@List.length Z)) in ER. rewrite firstn_length, skipn_length in ER. cbn [List.length] in ER. lia.
  - rewrite Z.mod_small by (pose proof (found_le _ _ _ _ _ HP); lia).
    assert (PS : placed_at ix q (set_adv t (n - it_found t + 1)) A R).
    { split; [exact P1|]. split; [exact P2|]. split; [exact P3|]. split; [exact P4|]. split; [exact P5|]. destruct P6 as [X|(X1 & X2 & vs1 & vs2 & gs2 & X3 & X4 & X5 & X6 & X7)]; [left; exact X|right]. split; [exact X1|]. split; [exact X2|]. exists vs1, vs2, gs2. repeat (split; [assumption|]). destruct gs2; exact X7. }
    pose proof (found_le _ _ _ _ _ HP) as FL.
    destruct (call_at ix q (set_adv t (n - it_found t + 1)) cur A R HM PS) as (ix2 & q2 & s & t2 & A2 & R2 & E & I & C & PL & ER & F1 & F2); [cbn [it_adv set_adv]; lia|exact HK|].
    cbn [it_adv it_found it_chunk set_adv] in *. replace (n - it_found t + 1 - 1) with (n - it_found t) in * by lia. exists ix2, q2, s, t2, A2, R2. split; [exact E|]. split; [exact I|]. split; [exact C|]. split; [exact PL|].
    split; [|split; [intros K; rewrite (F1 K); lia|exact F2]]. rewrite ER. f_equal. unfold L. rewrite <- P1, conf_app, skipn_app. rewrite (skipn_all2 (conf A)) by lia. cbn [app]. f_equal. lia.
Qed.

Lemma run_pages : bounds_intersects (index_bounds h) (filter_bounds q') = Ok true -> lenB L < 2 ^ 30 -> forall cs ix q t cur A R, placed_at ix q t A R -> 1 <= it_chunk t -> Forall call_in cs ->
  exists ps, iter_run pts vlrs ix q cur t cs = Ok ps /\ pages L (it_chunk t) (it_found t) cs ps.
Proof.
  intros HM HS. induction cs as [|c cs IH]; intros ix q t cur A R HP HK HC.
  - exists []. split; [reflexivity|constructor].
  - pose proof (Forall_inv HC) as C1. pose proof (found_le _ _ _ _ _ HP) as FL. 
    assert (EC : (match c with At n => iter_at pts vlrs ix q cur t n | Advance n => iter_advance pts vlrs ix q cur t n end) = iter_at pts vlrs ix q cur t (target c (it_found t)) /\ - 2 ^ 31 <= target c (it_found t) < 2 ^ 31).
    { destruct c as [n|n]; cbn [target call_in] in *; [split; [reflexivity|lia]|]. unfold iter_advance. set (m := if 0 <? n then n - 1 else n). assert (MR : - 2 ^ 30 <= m < 2 ^ 30) by (unfold m; destruct (Z.ltb_spec 0 n); lia).
      split; [|lia]. f_equal. unfold to_signed. destruct (Z.leb_spec 0 (it_found t + m)) as [K|K].
      - rewrite Z.mod_small by lia. change (2 ^ (32 - 1)) with (2 ^ 31). destruct (Z.ltb_spec (it_found t + m) (2 ^ 31)); lia.
      - replace ((it_found t + m) mod 2 ^ 32) with (it_found t + m + 2 ^ 32) by (rewrite <- (Z.mod_small (it_found t + m + 2 ^ 32) (2 ^ 32)) by lia; rewrite <- (Z.mod_add (it_found t + m) 1 (2 ^ 32)) by lia; f_equal; lia).
        change (2 ^ (32 - 1)) with (2 ^ 31). destruct (Z.ltb_spec (it_found t + m + 2 ^ 32) (2 ^ 31)); lia. }
    destruct EC as (EC & TR). destruct (iter_at_ok ix q t cur A R (target c (it_found t)) HM HP TR HK) as (ix2 & q2 & s & t2 & A2 & R2 & E & I & CH & PL & ER & F1 & F2).
    destruct (IH ix2 q2 t2 (fs_cur s) A2 R2 PL ltac:(lia) (Forall_inv_tail HC)) as (ps & E2 & PG).
    exists (fs_res s :: ps). cbn [iter_run]. rewrite EC, E. cbn [obind]. rewrite I, E2. split; [reflexivity|]. rewrite CH in PG.
    exact (pages_cons _ _ _ _ _ _ _ _ ER F1 F2 PG).
Qed.
End Calls.

(** ** The points of the cells of a built index *)
Section Whole.
Variables (g : grid) (pts : list coords) (ps : list placed) (l : list placed_cell) (q : query).
Hypothesis HP : length ps = length pts.
Hypothesis HLN : lenB pts < 2 ^ 31.
Hypothesis HF : forall j pc, nth_error l j = Some pc -> fin_cell g pts (ids_of (Z.of_nat j) ps) (Z.of_nat j) pc.

Lemma fin_items ids k pc : fin_cell g pts ids k pc -> StronglySorted Z.lt ids -> Permutation (map fst (c_items pts q pc)) ids.
Proof.
  intros [F1 F2 F3 F4 F5] HS. destruct pc as ((x, y), c). unfold c_items. cbn [fst snd] in *. unfold cell_items. rewrite F4. destruct F5 as [(X & E & R)|(P & N & D)].
  - rewrite X, items_ids, E. apply Permutation_refl.
  - pose proof (dinv_nonempty _ _ _ _ _ D N) as NE. pose proof (dinv_all_nodup _ _ _ _ _ HS D) as ND. destruct (dinv_member _ _ _ _ _ D) as (M1 & M2). destruct (k_xysub c) as [|s0 m0] eqn:EX; [contradiction|]. rewrite <- EX in *. clear s0 m0 EX NE.
    assert (E : map fst (subs_items pts q x y (fun _ => 0) (fun sub => cell_interesting q x y && subcell_interesting q sub x y) (k_xysub c)) = all_ids (k_xysub c)).
    { unfold subs_items. rewrite map_flat_map. unfold all_ids. apply flat_map_ext. intros s. apply items_ids. }
    rewrite E. apply NoDup_Permutation; [exact ND|now apply sorted_nodup|]. intros i. unfold all_ids. rewrite in_flat_map. split.
    + intros ((s & r) & H1 & H2). apply (M1 s r i H1 H2).
    + intros Hi. destruct (M2 i Hi) as (r & H1 & H2). eauto.
Qed.

Lemma items_num pc : In pc l -> lenB (c_items pts q pc) = k_num (snd pc).
Proof.
  intros H. apply In_nth_error in H. destruct H as (j & E). pose proof (HF j pc E) as F. rewrite (fc_num _ _ _ _ _ F). pose proof (Permutation_length (fin_items _ _ _ F (ids_sorted _ _))) as PL. rewrite map_length in PL. lia.
Qed.

Lemma items_total m k : (forall j pc, nth_error m j = Some pc -> fin_cell g pts (ids_of (k + Z.of_nat j) ps) (k + Z.of_nat j) pc) ->
  NoDup (flat_map (fun pc => map fst (c_items pts q pc)) (filter nonempty m)).
Proof.
  revert k. induction m as [|c m IH]; intros k H; [constructor|]. pose proof (H 0%nat c eq_refl) as H0. cbn [Z.of_nat] in H0. rewrite Z.add_0_r in H0.
  assert (H' : forall j pc, nth_error m j = Some pc -> fin_cell g pts (ids_of (k + 1 + Z.of_nat j) ps) (k + 1 + Z.of_nat j) pc).
  { intros j pc E. specialize (H (S j) pc E). replace (k + 1 + Z.of_nat j) with (k + Z.of_nat (S j)) by lia. exact H. }
  specialize (IH (k + 1) H'). cbn [filter]. destruct (nonempty c); [|exact IH]. cbn [flat_map]. apply nodup_app; [|exact IH|].
  - apply (Permutation_NoDup (Permutation_sym (fin_items _ _ _ H0 (ids_sorted _ _)))). apply sorted_nodup, ids_sorted.
  - intros i A B. apply (Permutation_in _ (fin_items _ _ _ H0 (ids_sorted _ _))) in A. apply in_flat_map in B. destruct B as (pc & B1 & B2). apply filter_In in B1. destruct B1 as (B1 & _). apply In_nth_error in B1. destruct B1 as (j & E).
    apply (Permutation_in _ (fin_items _ _ _ (H' j pc E) (ids_sorted _ _))) in B2. assert (k = k + 1 + Z.of_nat j) by (eapply ids_unique; eassumption). lia.
Qed.

Lemma items_bound : lenB (flat_map (c_items pts q) (filter nonempty l)) <= lenB pts.
Proof.
  pose proof (items_total l 0 HF) as ND. assert (I : incl (flat_map (fun pc => map fst (c_items pts q pc)) (filter nonempty l)) (zseq 0 (length pts))).
  { intros i Hi. apply in_flat_map in Hi. destruct Hi as (pc & B1 & B2). apply filter_In in B1. destruct B1 as (B1 & _). apply In_nth_error in B1. destruct B1 as (j & E).
    apply (Permutation_in _ (fin_items _ _ _ (HF j pc E) (ids_sorted _ _))) in B2. apply ids_range in B2. apply zseq_In. lia. }
  pose proof (NoDup_incl_length ND I) as LE. rewrite zseq_length in LE.
  assert (E : length (flat_map (c_items pts q) (filter nonempty l)) = length (flat_map (fun pc => map fst (c_items pts q pc)) (filter nonempty l))).
  { rewrite <- (map_length fst). now rewrite map_flat_map. }
  lia.
Qed.

Lemma count_sum cs : forall a, (forall c, In c cs -> lenB (c_items pts q c) = k_num (snd c)) -> 0 <= a -> a + lenB (flat_map (c_items pts q) cs) < 2 ^ 32 ->
  fold_left (fun n (c : placed_cell) => (n + k_num (snd c)) mod 2 ^ 32) cs a = a + lenB (flat_map (c_items pts q) cs).
Proof.
  induction cs as [|c cs IH]; intros a HC HA HS; cbn [fold_left flat_map]; [cbn [List.length]; lia|].
  cbn [flat_map] in HS. rewrite app_length in *. pose proof (HC c (or_introl eq_refl)) as E. rewrite <- E. rewrite Z.mod_small by lia. rewrite IH; [lia|intros d Hd; apply HC; now right|lia|lia].
Qed.

Lemma groups_whole gs : cells_of gs = filter nonempty l -> Forall (whole pts q) gs /\ lenB (flat_map (g_items pts q) gs) <= lenB pts.
Proof.
  intros EC. assert (EA : flat_map (g_items pts q) gs = flat_map (c_items pts q) (filter nonempty l)).
  { rewrite <- EC. unfold cells_of. clear. induction gs as [|x gs IH]; [reflexivity|]. cbn [flat_map]. now rewrite flat_map_app, IH. }
  split; [|rewrite EA; apply items_bound]. apply Forall_forall. intros x Hx. unfold whole, g_pts, count_pts. symmetry.
  assert (IC : forall c, In c (g_cells x) -> In c l). { intros c Hc. assert (K : In c (filter nonempty l)) by (rewrite <- EC; unfold cells_of; apply in_flat_map; eauto). apply filter_In in K. tauto. }
  assert (LX : lenB (g_items pts q x) <= lenB pts).
  { pose proof items_bound as B. rewrite <- EA in B. apply in_split in Hx. destruct Hx as (a & b & ->). rewrite flat_map_app in B. cbn [flat_map] in B. rewrite !app_length in B. lia. }
  unfold g_items in *. rewrite count_sum; [lia|intros c Hc; apply items_num; now apply IC|lia|lia].
Qed.
End Whole.

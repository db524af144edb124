(** The coordinate summary, and RepairHeader. *)
From Coq Require Import ZArith List Bool Lia String.
Import ListNotations.
From Verif Require Import Outcome Bytes Float64 Classif_Model Header_Model Point_Model Point_Spec Point_Api Point_Proofs Point_Hist
  Coord_Api Coord_Header Stream_Model Reader_Model Writer_Model Writer_Api Summary_Model Summary_Spec Summary_Proofs Las2las_Model.
Local Open Scope Z_scope.
Local Notation length := List.length (only parsing).

Definition axis_attr (a : attr) : Prop := a = ARawX \/ a = ARawY \/ a = ARawZ.
(** points of one header *)
Definition of_header (h : header) (p : point) : Prop := point_wf p /\ p_hdr p = h.

Definition cinv (h : header) (q : csummary) (ps : list point) : Prop :=
  q_count q = Z.of_nat (length ps) mod 2 ^ 32 /\ tally 8 (vw AReturnNumber ps) (q_returns q) /\ tally 8 (vw ANumberOfReturns ps) (q_pulses q) /\
  match q_mm q with
  | None => ps = []
  | Some (mn, mx) => exists q0 r0 lo hi, p_hdr q0 = h /\ p_hdr r0 = h /\ st q0 mn lo /\ st r0 mx hi /\
      forall a, axis_attr a -> least (vw a ps) (lo a) /\ greatest (vw a ps) (hi a)
  end.

Lemma cinv_new h : cinv h cs_new [].
Proof. split; [reflexivity|]. split; [apply tally_nil|]. split; [apply tally_nil|reflexivity]. Qed.

Lemma cinv_add h q ps p : cinv h q ps -> of_header h p -> exists q', cs_add q p = Ok q' /\ cinv h q' (ps ++ [p]).
Proof.
  intros (C & T2 & T3 & M) (W & Hh). pose proof (view_agrees p W) as A.
  destruct (tally_snoc _ _ _ (view_of p AReturnNumber) T2) as (rt & I2 & T2'); [apply small_field; [exact W|cbn; auto]|].
  destruct (tally_snoc _ _ _ (view_of p ANumberOfReturns) T3) as (pu & I3 & T3'); [apply small_field; [exact W|cbn; auto]|].
  assert (K : exists mn mx q0 r0 lo hi, match q_mm q with None => (p, p) | Some mm => mm end = (mn, mx) /\ p_hdr q0 = h /\ p_hdr r0 = h /\
    st q0 mn lo /\ st r0 mx hi /\
    forall a, axis_attr a -> least (vw a (ps ++ [p])) (Z.min (view_of p a) (lo a)) /\ greatest (vw a (ps ++ [p])) (Z.max (view_of p a) (hi a))).
  { destruct (q_mm q) as [[mn mx]|].
    - destruct M as (q0 & r0 & lo & hi & H1 & H2 & S1 & S2 & L). exists mn, mx, q0, r0, lo, hi.
      split; [reflexivity|]. split; [exact H1|]. split; [exact H2|]. split; [exact S1|]. split; [exact S2|].
      intros a Ha. destruct (L a Ha) as (L1 & L2). unfold vw. rewrite map_app. cbn [map]. split; [now apply least_snoc|now apply greatest_snoc].
    - subst ps. exists p, p, p, p, (view_of p), (view_of p). split; [reflexivity|]. split; [exact Hh|]. split; [exact Hh|].
      split; [now apply st_refl|]. split; [now apply st_refl|]. intros a _. unfold vw. cbn [app map]. rewrite Z.min_id, Z.max_id.
      split; (split; [now left|]); intros v [<-|[]]; lia. }
  destruct K as (mn & mx & q0 & r0 & lo & hi & Em & H1 & H2 & S1 & S2 & L).
  unfold cs_add. rewrite Em. cbv zeta.
  set (vp := view_of p) in *.
  step ARawX set_raw_x. step ARawY set_raw_y. step ARawZ set_raw_z.
  pose proof (vw_get p AReturnNumber W ltac:(discriminate)) as G2.
  pose proof (vw_get p ANumberOfReturns W ltac:(discriminate)) as G3. cbn [api_get] in G2, G3. fold vp in G2, G3.
  rewrite G2. cbn [obind]. rewrite I2. cbn [obind]. rewrite G3. cbn [obind]. rewrite I3. cbn [obind].
  eexists. split; [reflexivity|]. unfold cinv. cbn [q_count q_returns q_pulses q_mm].
  unfold vw in *. rewrite app_length, !map_app. cbn [map List.length].
  split; [rewrite C, incr_mod; f_equal; lia|]. split; [exact T2'|]. split; [exact T3'|].
  match goal with S1 : st q0 ?mn ?lo', S2 : st r0 ?mx ?hi' |- _ => exists q0, r0, lo', hi' end.
  split; [exact H1|]. split; [exact H2|]. split; [assumption|]. split; [assumption|].
  intros a Ha. specialize (L a Ha). destruct Ha as [-> | [-> | ->]]; exact L.
Qed.

Fixpoint cs_feed (q : csummary) (ps : list point) : outcome csummary :=
  match ps with [] => Ok q | p :: ps => let! q := cs_add q p in cs_feed q ps end.
Lemma cinv_feed h ps' : forall q ps, cinv h q ps -> Forall (of_header h) ps' -> exists q', cs_feed q ps' = Ok q' /\ cinv h q' (ps ++ ps').
Proof.
  induction ps' as [|p ps' IH]; intros q ps I F; cbn [cs_feed].
  - exists q. now rewrite app_nil_r.
  - inversion F; subst. destruct (cinv_add h q ps p I) as (q1 & E & I1); [assumption|]. rewrite E. cbn [obind].
    destruct (IH q1 (ps ++ [p]) I1) as (q2 & E2 & I2); [assumption|]. exists q2. split; [exact E2|]. now rewrite <- app_assoc in I2.
Qed.

(** ** RepairHeader *)
(** the return counts a header gets *)
Definition return_counts (ps : list point) : list Z :=
  let n k := number_of (Z.eqb k) (vw AReturnNumber ps) mod 2 ^ 32 in
  let l := [n 1; n 2; n 3; n 4; n 5; n 6; n 7] in
  if forallb (Z.eqb 0) l then [Z.of_nat (length ps) mod 2 ^ 32; 0; 0; 0; 0; 0; 0] else l.

Lemma tally8 vs l : tally 8 vs l -> let n k := number_of (Z.eqb k) vs mod 2 ^ 32 in l = [n 0; n 1; n 2; n 3; n 4; n 5; n 6; n 7].
Proof.
  intros (L & T). do 8 (destruct l as [|? l]; [discriminate|]). destruct l; [|discriminate].
  cbv beta zeta. rewrite <- (T 0), <- (T 1), <- (T 2), <- (T 3), <- (T 4), <- (T 5), <- (T 6), <- (T 7) by lia. reflexivity.
Qed.

Lemma upd_byret_twice h a b : h_upd_byret (h_upd_byret h a) b = h_upd_byret h b.
Proof. reflexivity. Qed.
Definition with_byret (h : header) (l : list Z) : header := h_upd_byret h l.
Lemma set_by_return_at h l i v : length l = 7%nat -> 0 <= i < 7 ->
  set_by_return (with_byret h l) i v = Ok (with_byret h (list_set l (Z.to_nat i) (v mod 2 ^ 32))).
Proof.
  intros L Hi. unfold set_by_return, with_byret. cbn [h_byret h_upd_byret]. rewrite L.
  destruct (Z.leb_spec 0 i); [|lia]. destruct (Z.ltb_spec i (Z.of_nat 7)); [|lia]. cbn [andb]. now rewrite upd_byret_twice.
Qed.
Lemma set_returns_cons h l i c r : length l = 7%nat -> 1 <= i <= 7 ->
  set_returns (with_byret h l) ((i, c) :: r) = set_returns (with_byret h (list_set l (Z.to_nat (i - 1)) (c mod 2 ^ 32))) r.
Proof. intros L Hi. cbn [set_returns]. rewrite set_by_return_at by (assumption || lia). reflexivity. Qed.
Lemma with_byret_id h : with_byret h (h_byret h) = h.
Proof. destruct h. reflexivity. Qed.

(** a list of counts for return [i], [i+1], ... over what is there *)
Fixpoint over (cs r : list Z) : list Z :=
  match cs, r with c :: cs, x :: r => (if c =? 0 then x else c) :: over cs r | _, _ => [] end.
Lemma set_returns_nonzero cs : forall h pre r, length r = length cs -> (length pre + length cs = 7)%nat -> Forall (fun c => 0 <= c < 2 ^ 32) cs ->
  set_returns (with_byret h (pre ++ r)) (nonzero_from (Z.of_nat (length pre) + 1) cs) = Ok (with_byret h (pre ++ over cs r)).
Proof.
  induction cs as [|c cs IH]; intros h pre r Lr L F; destruct r as [|x r]; cbn [nonzero_from List.length over] in *; try discriminate; [reflexivity|].
  inversion F; subst.
  assert (E : Z.of_nat (length pre) + 1 + 1 = Z.of_nat (length (pre ++ [c])) + 1) by (rewrite app_length; cbn [List.length]; lia).
  assert (E2 : forall y, Z.of_nat (length pre) + 1 + 1 = Z.of_nat (length (pre ++ [y])) + 1) by (intros; rewrite app_length; cbn [List.length]; lia).
  assert (IHc : forall y, set_returns (with_byret h (pre ++ y :: r)) (nonzero_from (Z.of_nat (length pre) + 1 + 1) cs) = Ok (with_byret h (pre ++ y :: over cs r))).
  { intros y. pose proof (IH h (pre ++ [y]) r) as K. rewrite <- !app_assoc in K. cbn [app] in K. rewrite (E2 y). apply K; [lia|rewrite app_length; cbn [List.length]; lia|assumption]. }
  destruct (Z.eqb_spec c 0) as [->|N].
  - apply IHc.
  - rewrite set_returns_cons.
    + replace (Z.to_nat (Z.of_nat (length pre) + 1 - 1)) with (length pre) by lia. rewrite (Z.mod_small c) by lia.
      assert (LS : forall (p : list Z) u, list_set (p ++ x :: r) (length p) u = p ++ u :: r).
      { clear. induction p as [|y p IH]; intros; cbn [app list_set List.length]; [reflexivity|]. now rewrite IH. }
      rewrite LS. apply IHc.
    + rewrite app_length. cbn [List.length]. lia.
    + lia.
Qed.

Lemma zero_returns_ok h a b c d e f g : h_byret h = [a; b; c; d; e; f; g] -> zero_returns h = Ok (with_byret h [0; 0; 0; 0; 0; f; g]).
Proof.
  intros E. rewrite <- (with_byret_id h) at 1. rewrite E. unfold zero_returns.
  do 5 (rewrite set_returns_cons by (reflexivity || lia)). reflexivity.
Qed.

Lemma repair_ok text h0 q ps h a b c d e f g mn mx x0 y0 z0 x1 y1 z1 :
  cinv h0 q ps -> h_npts h <> 0 -> h_byret h = [a; b; c; d; e; f; g] -> in_unsigned 32 f -> in_unsigned 32 g -> q_mm q = Some (mn, mx) ->
  tree_coords text mn = Ok (x0, y0, z0) -> tree_coords text mx = Ok (x1, y1, z1) ->
  exists l, repair_header text q h = Ok (with_byret (set_max (set_min h x0 y0 z0) x1 y1 z1) l) /\
    firstn 5 l = firstn 5 (return_counts ps) /\ length l = 7%nat /\ Forall (in_unsigned 32) l.
Proof.
  intros (C & T & _) Hn Hb Uf Ug Em E0 E1. unfold repair_header. destruct (Z.eqb_spec (h_npts h) 0); [contradiction|].
  rewrite (zero_returns_ok h _ _ _ _ _ _ _ Hb). cbn [obind]. rewrite Em, E0. cbn [obind]. rewrite E1. cbn [obind].
  set (h2 := set_max (set_min h x0 y0 z0) x1 y1 z1).
  change (set_max (set_min (with_byret h [0; 0; 0; 0; 0; f; g]) x0 y0 z0) x1 y1 z1) with (with_byret h2 [0; 0; 0; 0; 0; f; g]).
  rewrite (zero_returns_ok _ 0 0 0 0 0 f g) by reflexivity. cbn [obind].
  change (with_byret (with_byret h2 [0; 0; 0; 0; 0; f; g]) [0; 0; 0; 0; 0; f; g]) with (with_byret h2 [0; 0; 0; 0; 0; f; g]).
  clearbody h2. pose proof (tally8 _ _ T) as E8. cbv beta zeta in E8. unfold cs_returns, return_counts. cbv beta zeta. rewrite E8.
  match goal with |- context [forallb _ ?l] => set (cs := l) end.
  assert (NN : forall l i, nonzero_from i l = [] <-> forallb (Z.eqb 0) l = true).
  { clear. induction l as [|x l IH]; intros i; cbn [nonzero_from forallb]; [tauto|]. rewrite (Z.eqb_sym 0 x). destruct (x =? 0); cbn [andb]; [apply IH|].
    split; discriminate. }
  assert (U0 : in_unsigned 32 0) by (unfold in_unsigned; lia).
  assert (UM : forall z, in_unsigned 32 (z mod 2 ^ 32)) by (intros; unfold in_unsigned; apply Z.mod_pos_bound; lia).
  specialize (NN cs 1). destruct (forallb (Z.eqb 0) cs).
  - rewrite (proj2 NN eq_refl). rewrite set_returns_cons by (reflexivity || lia). rewrite C, Z.mod_mod by lia. eexists. split; [reflexivity|].
    split; [reflexivity|]. split; [reflexivity|]. cbn [Z.to_nat list_set Z.sub Z.add Z.opp Z.pos_sub].
    apply Forall_cons; [apply UM|]. do 4 (apply Forall_cons; [exact U0|]). apply Forall_cons; [exact Uf|]. apply Forall_cons; [exact Ug|]. apply Forall_nil.
  - assert (FC : Forall (fun c => 0 <= c < 2 ^ 32) cs).
    { unfold cs. repeat apply Forall_cons; try apply Forall_nil; apply Z.mod_pos_bound; lia. }
    pose proof (set_returns_nonzero cs h2 [] [0; 0; 0; 0; 0; f; g] eq_refl eq_refl FC) as S. cbn [List.length app Z.of_nat Z.add] in S.
    exists (over cs [0; 0; 0; 0; 0; f; g]).
    split; [|split; [|split]].
    + destruct (nonzero_from 1 cs) as [|y r]; [|exact S]. exfalso. destruct NN as (NN & _). specialize (NN eq_refl). discriminate.
    + unfold cs. cbn [over firstn]. clear. 
      repeat match goal with |- context [if ?z =? 0 then 0 else ?z] => replace (if z =? 0 then 0 else z) with z by (destruct (Z.eqb_spec z 0); congruence) end. reflexivity.
    + reflexivity.
    + assert (K : forall l r, Forall (fun c => 0 <= c < 2 ^ 32) l -> Forall (in_unsigned 32) r -> Forall (in_unsigned 32) (over l r)).
      { clear. induction l as [|c l IH]; intros [|x r] F1 F2; cbn [over]; try apply Forall_nil. inversion F1; subst. inversion F2; subst.
        apply Forall_cons; [destruct (c =? 0); assumption|now apply IH]. }
      apply K; [exact FC|]. do 5 (apply Forall_cons; [exact U0|]). apply Forall_cons; [exact Uf|]. apply Forall_cons; [exact Ug|]. apply Forall_nil.
Qed.

(** The chipper's recursion yields a partition with exact bounds. *)
From Coq Require Import ZArith List Bool Lia Permutation Sorting.Sorted.
Import ListNotations.
From Verif Require Import Outcome Bytes Float64 Float64_Proofs Header_Model Cached_Model Cached_Proofs Summary_Proofs Chipper_Model Chipper_Spec Chipper_Lists Chipper_Proofs Chipper_Split.
Local Open Scope Z_scope.
Local Notation length := List.length (only parsing).

Definition in_range (l h : Z) (b : block) : Prop := l <= b_left b /\ b_left b <= b_right b /\ b_right b < h.
Definition agree (c c' : chip) (l h : Z) : Prop :=
  forall s, length (vec c' s) = length (vec c s) /\ forall i, l <= i < h -> (vec c' s).[i] = (vec c s).[i].
Lemma frame_agree c c' l0 h0 l h : same_frame c c' l0 h0 -> 0 <= l -> h <= l0 \/ h0 <= l -> agree c c' l h.
Proof. intros F Hl D s. destruct (F s) as (A & B). split; [exact A|]. intros i Hi. apply B; lia. Qed.
Lemma vrange_agree v v' l h a b : length v' = length v -> (forall i, l <= i < h -> v'.[i] = v.[i]) -> 0 <= l -> l <= a -> a <= b -> b < h ->
  vrange v' a b = vrange v a b.
Proof.
  intros L E Hl Ha Hab Hb. destruct (Z.ltb_spec b (lenZ v)) as [B|B].
  - replace b with (b + 1 - 1) by lia. rewrite !vrange_ok by (rewrite ?L; lia). f_equal. apply sub_ext. intros; apply E; lia.
  - unfold vrange. rewrite L. destruct (Z.ltb_spec b a); [lia|]. destruct (Z.ltb_spec b (lenZ v)); [lia|]. now rewrite andb_false_r.
Qed.
Lemma blocks_seen_agree c c' l h bs : agree c c' l h -> 0 <= l -> Forall (in_range l h) bs -> blocks_seen c' bs = blocks_seen c bs.
Proof.
  intros A Hl. induction 1 as [|b bs (R1 & R2 & R3) F IH]; [reflexivity|]. cbn [blocks_seen]. rewrite IH. unfold block_ids.
  destruct (A (b_list b)) as (L & E). now rewrite (vrange_agree (vec c (b_list b)) (vec c' (b_list b)) l h).
Qed.
Lemma blocks_seen_app c a b x y : blocks_seen c a = Ok x -> blocks_seen c b = Ok y -> blocks_seen c (a ++ b) = Ok (x ++ y).
Proof.
  revert x. induction a as [|k a IH]; intros x Ex Ey.
  - cbn in Ex. injection Ex as <-. exact Ey.
  - cbn [blocks_seen app] in *. apply obind_ok in Ex. destruct Ex as (ids & -> & Ex). apply obind_ok in Ex. destruct Ex as (r & Er & Ex).
    injection Ex as <-. cbn [obind]. rewrite (IH r Er Ey). reflexivity.
Qed.

(** ** find_left, find_right *)
Lemma find_left_ok center : forall L i l1 l2, 0 <= i ->
  let r := find_left L i center l1 l2 in
  (0 <= l1 -> fst r = l1) /\ (0 <= l2 -> snd r = l2) /\
  (l1 < 0 -> (exists k, (k < length L)%nat /\ t_o (nth k L ref0) < center) ->
     exists k, (k < length L)%nat /\ fst r = i + Z.of_nat k /\ t_o (nth k L ref0) < center /\ forall k', (k' < k)%nat -> center <= t_o (nth k' L ref0)) /\
  (l2 < 0 -> (exists k, (k < length L)%nat /\ center <= t_o (nth k L ref0)) ->
     exists k, (k < length L)%nat /\ snd r = i + Z.of_nat k /\ center <= t_o (nth k L ref0) /\ forall k', (k' < k)%nat -> t_o (nth k' L ref0) < center).
Proof.
  induction L as [|x L IH]; intros i l1 l2 Hi; cbn zeta; cbn [find_left].
  { cbn [fst snd List.length]. repeat split; auto; intros _ (k & Hk & _); lia. }
  assert (SH1 : forall f, f < 0 \/ 0 <= f -> True) by auto.
  destruct (Z.ltb_spec l1 0) as [A|A], (Z.ltb_spec (t_o x) center) as [B|B]; cbn [andb].
  - destruct (Z.leb_spec 0 l2) as [C|C].
    + cbn [fst snd]. repeat split; try lia. intros _ _. exists 0%nat. cbn [nth List.length]. repeat split; lia.
    + destruct (IH (i + 1) i l2 ltac:(lia)) as (H1 & H2 & H3 & H4). cbn zeta in *. split; [lia|]. split; [lia|]. split.
      * intros _ _. exists 0%nat. cbn [nth List.length]. rewrite H1 by lia. repeat split; lia.
      * intros _ (k & Hk & Ek). destruct k as [|k]; cbn [nth] in Ek; [lia|]. cbn [List.length] in Hk.
        destruct H4 as (m & M1 & M2 & M3 & M4); [lia|exists k; split; [lia|exact Ek]|]. exists (S m). cbn [nth List.length].
        repeat split; try lia; auto. intros [|k'] Hk'; cbn [nth]; [lia|]. apply M4. lia.
  - destruct (Z.leb_spec center (t_o x)) as [_|]; [|lia]. destruct (Z.ltb_spec l2 0) as [C|C]; cbn [andb].
    + destruct (Z.leb_spec 0 l1); [lia|]. destruct (IH (i + 1) l1 i ltac:(lia)) as (H1 & H2 & H3 & H4). cbn zeta in *. split; [lia|]. split; [lia|]. split.
      * intros _ (k & Hk & Ek). destruct k as [|k]; cbn [nth] in Ek; [lia|]. cbn [List.length] in Hk.
        destruct H3 as (m & M1 & M2 & M3 & M4); [lia|exists k; split; [lia|exact Ek]|]. exists (S m). cbn [nth List.length].
        repeat split; try lia; auto. intros [|k'] Hk'; cbn [nth]; [lia|]. apply M4. lia.
      * intros _ _. exists 0%nat. cbn [nth List.length]. rewrite H2 by lia. repeat split; lia.
    + destruct (IH (i + 1) l1 l2 ltac:(lia)) as (H1 & H2 & H3 & H4). cbn zeta in *. split; [lia|]. split; [auto|]. split; [|lia].
      intros _ (k & Hk & Ek). destruct k as [|k]; cbn [nth] in Ek; [lia|]. cbn [List.length] in Hk.
      destruct H3 as (m & M1 & M2 & M3 & M4); [lia|exists k; split; [lia|exact Ek]|]. exists (S m). cbn [nth List.length].
      repeat split; try lia; auto. intros [|k'] Hk'; cbn [nth]; [lia|]. apply M4. lia.
  - rewrite (proj2 (Z.leb_gt _ _) B), andb_false_r. destruct (IH (i + 1) l1 l2 ltac:(lia)) as (H1 & H2 & H3 & H4). cbn zeta in *. split; [auto|]. split; [auto|]. split; [lia|].
    intros C (k & Hk & Ek). destruct k as [|k]; cbn [nth] in Ek; [lia|]. cbn [List.length] in Hk.
    destruct H4 as (m & M1 & M2 & M3 & M4); [lia|exists k; split; [lia|exact Ek]|]. exists (S m). cbn [nth List.length].
    repeat split; try lia; auto. intros [|k'] Hk'; cbn [nth]; [lia|]. apply M4. lia.
  - rewrite (proj2 (Z.leb_le _ _) B). destruct (Z.ltb_spec l2 0) as [C|C]; cbn [andb].
    + destruct (Z.leb_spec 0 l1); [|lia]. cbn [fst snd]. repeat split; try lia. intros _ _. exists 0%nat. cbn [nth List.length]. repeat split; lia.
    + destruct (IH (i + 1) l1 l2 ltac:(lia)) as (H1 & H2 & H3 & H4). cbn zeta in *. split; [auto|]. split; [auto|]. split; lia.
Qed.
Lemma find_right_left center : forall L i r1 r2 M, r1 < 0 \/ 0 <= r1 <= M -> r2 < 0 \/ 0 <= r2 <= M -> lenZ L <= i + 1 -> i <= M ->
  let f z := if z <? 0 then z else M - z in
  let r := find_left L (M - i) center (f r1) (f r2) in
  find_right L i center r1 r2 = (f (fst r), f (snd r)).
Proof.
  induction L as [|x L IH]; intros i r1 r2 M A B Hi HM; cbn zeta.
  - cbn [find_right find_left fst snd]. f_equal.
    + destruct (Z.ltb_spec r1 0) as [|]; [now rewrite (proj2 (Z.ltb_lt r1 0))|]. destruct (Z.ltb_spec (M - r1) 0); lia.
    + destruct (Z.ltb_spec r2 0) as [|]; [now rewrite (proj2 (Z.ltb_lt r2 0))|]. destruct (Z.ltb_spec (M - r2) 0); lia.
  - cbn [find_right find_left]. cbn [List.length] in Hi.
    assert (FN : forall z, z < 0 \/ 0 <= z <= M -> ((if z <? 0 then z else M - z) <? 0) = (z <? 0)).
    { intros z Hz. destruct (Z.ltb_spec z 0) as [L0|L0]; [now rewrite (proj2 (Z.ltb_lt z 0))|]. apply Z.ltb_ge. lia. }
    assert (FP : forall z, z < 0 \/ 0 <= z <= M -> (0 <=? (if z <? 0 then z else M - z)) = (0 <=? z)).
    { intros z Hz. destruct (Z.ltb_spec z 0) as [L0|L0]; [reflexivity|]. rewrite !(proj2 (Z.leb_le _ _)) by lia. reflexivity. }
    assert (FF : forall z, z < 0 \/ 0 <= z <= M -> (if (if z <? 0 then z else M - z) <? 0 then (if z <? 0 then z else M - z) else M - (if z <? 0 then z else M - z)) = z).
    { intros z Hz. rewrite FN by exact Hz. destruct (Z.ltb_spec z 0); lia. }
    assert (FI : (if i <? 0 then i else M - i) = M - i) by (destruct (Z.ltb_spec i 0); lia).
    assert (FI2 : (if (M - i) <? 0 then M - i else M - (M - i)) = i) by (destruct (Z.ltb_spec (M - i) 0); lia).
    rewrite (FN r1 A), (FN r2 B), (FP r1 A), (FP r2 B). replace (M - i + 1) with (M - (i - 1)) by lia.
    destruct ((r1 <? 0) && (t_o x <? center)) eqn:C1.
    + destruct (0 <=? r2) eqn:C2.
      * cbn [fst snd]. now rewrite FI2, (FF r2 B).
      * rewrite (IH (i - 1) i r2 M) by lia. cbn zeta. now rewrite FI.
    + destruct ((r2 <? 0) && (center <=? t_o x)) eqn:C2.
      * destruct (0 <=? r1) eqn:C3.
        -- cbn [fst snd]. now rewrite FI2, (FF r1 A).
        -- rewrite (IH (i - 1) r1 i M) by lia. cbn zeta. now rewrite FI.
      * now rewrite (IH (i - 1) r1 r2 M) by lia.
Qed.

Lemma u32_id z : 0 <= z < 2 ^ 32 -> u32 z = z.
Proof. intros. unfold u32. now apply Z.mod_small. Qed.

(** first and last low and high index of a range *)
Lemma find_sides n l center h : 0 <= l -> l < h -> h <= lenZ n ->
  (exists i, l <= i < h /\ t_o n.[i] < center) -> (exists i, l <= i < h /\ center <= t_o n.[i]) ->
  exists l1 l2 r1 r2,
    find_left (sub n l h) l center (-1) (-1) = (l1, l2) /\ find_right (rev (sub n l h)) (h - 1) center (-1) (-1) = (r1, r2) /\
    (l <= l1 < h /\ t_o n.[l1] < center /\ forall i, l <= i < h -> t_o n.[i] < center -> l1 <= i) /\
    (l <= l2 < h /\ center <= t_o n.[l2] /\ forall i, l <= i < h -> center <= t_o n.[i] -> l2 <= i) /\
    (l <= r1 < h /\ t_o n.[r1] < center /\ forall i, l <= i < h -> t_o n.[i] < center -> i <= r1) /\
    (l <= r2 < h /\ center <= t_o n.[r2] /\ forall i, l <= i < h -> center <= t_o n.[i] -> i <= r2).
Proof.
  intros Hl Hlh Hh (a & Ha & La) (b & Hb & Lb).
  assert (N1 : forall k, (k < length (sub n l h))%nat -> nth k (sub n l h) ref0 = n.[l + Z.of_nat k]).
  { intros k Hk. rewrite sub_length in Hk. apply sub_nth. lia. }
  assert (N2 : forall k, (k < length (rev (sub n l h)))%nat -> nth k (rev (sub n l h)) ref0 = n.[h - 1 - Z.of_nat k]).
  { intros k Hk. rewrite rev_length in Hk. rewrite rev_nth by exact Hk. rewrite sub_length in *. rewrite sub_nth by lia. f_equal. lia. }
  assert (LL := sub_length n l h). assert (LR : length (rev (sub n l h)) = Z.to_nat (h - l)) by now rewrite rev_length.
  destruct (find_left_ok center (sub n l h) l (-1) (-1) Hl) as (_ & _ & F1 & F2). cbn zeta in *.
  destruct (find_left (sub n l h) l center (-1) (-1)) as (l1, l2). cbn [fst snd] in *.
  destruct F1 as (k1 & K1 & -> & O1 & M1); [lia| |].
  { exists (Z.to_nat (a - l)). split; [lia|]. rewrite N1 by lia. replace (l + Z.of_nat (Z.to_nat (a - l))) with a by lia. exact La. }
  destruct F2 as (k2 & K2 & -> & O2 & M2); [lia| |].
  { exists (Z.to_nat (b - l)). split; [lia|]. rewrite N1 by lia. replace (l + Z.of_nat (Z.to_nat (b - l))) with b by lia. exact Lb. }
  pose proof (find_right_left center (rev (sub n l h)) (h - 1) (-1) (-1) (h - 1) ltac:(lia) ltac:(lia) ltac:(lia) ltac:(lia)) as ER.
  cbn zeta in ER. cbn [Z.ltb Z.compare] in ER. replace (h - 1 - (h - 1)) with 0 in ER by lia.
  destruct (find_left_ok center (rev (sub n l h)) 0 (-1) (-1) ltac:(lia)) as (_ & _ & F1 & F2). cbn zeta in *.
  destruct (find_left (rev (sub n l h)) 0 center (-1) (-1)) as (q1, q2). cbn [fst snd] in *.
  destruct F1 as (k3 & K3 & -> & O3 & M3); [lia| |].
  { exists (Z.to_nat (h - 1 - a)). split; [lia|]. rewrite N2 by lia. replace (h - 1 - Z.of_nat (Z.to_nat (h - 1 - a))) with a by lia. exact La. }
  destruct F2 as (k4 & K4 & -> & O4 & M4); [lia| |].
  { exists (Z.to_nat (h - 1 - b)). split; [lia|]. rewrite N2 by lia. replace (h - 1 - Z.of_nat (Z.to_nat (h - 1 - b))) with b by lia. exact Lb. }
  destruct (Z.ltb_spec (0 + Z.of_nat k3) 0); [lia|]. destruct (Z.ltb_spec (0 + Z.of_nat k4) 0); [lia|].
  rewrite N1 in O1, O2 by assumption. rewrite N2 in O3, O4 by assumption.
  exists (l + Z.of_nat k1), (l + Z.of_nat k2), (h - 1 - (0 + Z.of_nat k3)), (h - 1 - (0 + Z.of_nat k4)).
  split; [reflexivity|]. split; [exact ER|]. rewrite !Z.add_0_l.
  split; [|split; [|split]].
  - split; [lia|]. split; [exact O1|]. intros i Hi Li. destruct (Z.le_gt_cases (l + Z.of_nat k1) i) as [|Q]; [assumption|].
    specialize (M1 (Z.to_nat (i - l)) ltac:(lia)). rewrite N1 in M1 by lia. replace (l + Z.of_nat (Z.to_nat (i - l))) with i in M1 by lia. lia.
  - split; [lia|]. split; [exact O2|]. intros i Hi Li. destruct (Z.le_gt_cases (l + Z.of_nat k2) i) as [|Q]; [assumption|].
    specialize (M2 (Z.to_nat (i - l)) ltac:(lia)). rewrite N1 in M2 by lia. replace (l + Z.of_nat (Z.to_nat (i - l))) with i in M2 by lia. lia.
  - split; [lia|]. split; [exact O3|]. intros i Hi Li. destruct (Z.le_gt_cases i (h - 1 - Z.of_nat k3)) as [|Q]; [assumption|].
    specialize (M3 (Z.to_nat (h - 1 - i)) ltac:(lia)). rewrite N2 in M3 by lia. replace (h - 1 - Z.of_nat (Z.to_nat (h - 1 - i))) with i in M3 by lia. lia.
  - split; [lia|]. split; [exact O4|]. intros i Hi Li. destruct (Z.le_gt_cases i (h - 1 - Z.of_nat k4)) as [|Q]; [assumption|].
    specialize (M4 (Z.to_nat (h - 1 - i)) ltac:(lia)). rewrite N2 in M4 by lia. replace (h - 1 - Z.of_nat (Z.to_nat (h - 1 - i))) with i in M4 by lia. lia.
Qed.

Section Run.
Variable pts : list (f64 * f64).

(** ** Emit *)
Lemma emit_ok c wide narrow a b i1 i2 :
  0 <= a < b -> b <= lenZ (vec c wide) -> 0 <= i1 < lenZ (vec c narrow) -> 0 <= i2 < lenZ (vec c narrow) ->
  crossed (dirof c wide) (dirof c narrow) -> sorted_on (vec c wide) a b -> placed pts (dirof c wide) (vec c wide) a b ->
  let ids := map t_id (sub (vec c wide) a b) in
  is_least (coord pts (dirof c narrow)) ids (t_pos (vec c narrow).[i1]) -> is_greatest (coord pts (dirof c narrow)) ids (t_pos (vec c narrow).[i2]) ->
  exists blk, emit c wide a (b - 1) narrow i1 i2 = Ok (add_block c blk) /\ b_list blk = wide /\ b_left blk = a /\ b_right blk = b - 1 /\
    exact_bounds pts (mkCB ids (b_minx blk) (b_miny blk) (b_maxx blk) (b_maxy blk)).
Proof.
  intros Hab Hb H1 H2 CR S P ids L G. unfold emit. rewrite !vget_at by lia. cbn [obind].
  set (w := vec c wide) in *. set (n := vec c narrow) in *.
  assert (WL : is_least (coord pts (dirof c wide)) ids (t_pos w.[a])).
  { split.
    - exists (t_id w.[a]). split; [|symmetry; apply P; lia]. unfold ids, sub. apply in_map, in_map, zrange_In. lia.
    - intros i Hi. unfold ids, sub in Hi. rewrite map_map in Hi. apply in_map_iff in Hi. destruct Hi as (j & <- & Hj). apply zrange_In in Hj.
      destruct (P j Hj) as (<- & _). apply S; lia. }
  assert (WG : is_greatest (coord pts (dirof c wide)) ids (t_pos w.[b - 1])).
  { split.
    - exists (t_id w.[b - 1]). split; [|symmetry; apply P; lia]. unfold ids, sub. apply in_map, in_map, zrange_In. lia.
    - intros i Hi. unfold ids, sub in Hi. rewrite map_map in Hi. apply in_map_iff in Hi. destruct Hi as (j & <- & Hj). apply zrange_In in Hj.
      destruct (P j Hj) as (<- & _). apply S; lia. }
  destruct CR as [(E1 & E2)|(E1 & E2)]; rewrite E1, E2 in *; eexists; (split; [reflexivity|]); cbn [b_list b_left b_right b_minx b_miny b_maxx b_maxy];
    (split; [reflexivity|]); (split; [reflexivity|]); (split; [reflexivity|]); unfold exact_bounds; cbn [cb_ids cb_minx cb_miny cb_maxx cb_maxy]; (split; [|split; [|split]]); first [exact L|exact G|exact WL|exact WG].
Qed.
Lemma block_ids_ok c blk a b : b_left blk = a -> b_right blk = b - 1 -> 0 <= a < b -> b <= lenZ (vec c (b_list blk)) ->
  block_ids c blk = Ok (map t_id (sub (vec c (b_list blk)) a b)).
Proof. intros E1 E2 H1 H2. unfold block_ids. rewrite E1, E2, vrange_ok by lia. reflexivity. Qed.

Variable srt : sorter.
Hypothesis srt_ok : is_sort srt.
Variable use_sort : bool.
Variable part : list Z.
Definition P (p : Z) : Z := nth (Z.to_nat p) part 0.
Definition sizes (pl pr : Z) : list Z := map (fun p => P (p + 1) - P p) (zrange pl pr).
Hypothesis part_mono : forall p q, 0 <= p < q -> q < lenZ part -> P p < P q.
Hypothesis part_low : P 0 = 0.
Hypothesis part_high : forall p, 0 <= p < lenZ part -> P p < 2 ^ 32.
Hypothesis part_len : lenZ part <= 2 ^ 31.
Lemma P_nonneg p : 0 <= p < lenZ part -> 0 <= P p.
Proof. intros H. destruct (Z.eq_dec p 0) as [->|]; [lia|]. pose proof (part_mono 0 p). lia. Qed.
Lemma P_get p : 0 <= p < lenZ part -> vget part p = Ok (P p).
Proof. intros H. now apply vget_ok. Qed.

Definition post (c c' : chip) (v : slot) (pl pr : Z) : Prop :=
  exists bs seen, c_blocks c' = c_blocks c ++ bs /\ Forall (in_range (P pl) (P pr)) bs /\ blocks_seen c' bs = Ok seen /\
    map (fun b => lenZ (cb_ids b)) seen = sizes pl pr /\
    Permutation (concat (map cb_ids seen)) (map t_id (sub (vec c v) (P pl) (P pr))) /\ Forall (exact_bounds pts) seen.

Lemma one_block_post c wide narrow pl pr : good pts c wide narrow (P pl) (P pr) -> 0 <= pl -> pr = pl + 1 -> pr < lenZ part ->
  exists c', emit c wide (P pl) (P pr - 1) narrow (P pl) (P pr - 1) = Ok c' /\ same_frame c c' (P pl) (P pr) /\
    (forall s, dirof c' s = dirof c s) /\ post c c' wide pl pr.
Proof.
  intros G Hpl -> Hpr. destruct G as [G1 G2 G3 GL S1 S2 P1 P2 CR].
  set (l := P pl) in *. set (h := P (pl + 1)) in *.
  destruct (emit_ok c wide narrow l h l (h - 1)) as (blk & E & B1 & B2 & B3 & B4); try assumption; try lia.
  { split.
    - exists (t_id (vec c narrow).[l]). split; [|symmetry; apply P2; lia].
      apply (Permutation_in _ (linked_ids _ _ _ _ (linked_sym _ _ _ _ GL))). unfold sub. apply in_map, in_map, zrange_In. lia.
    - intros i Hi. apply (Permutation_in _ (linked_ids _ _ _ _ GL)) in Hi. unfold sub in Hi. rewrite map_map in Hi.
      apply in_map_iff in Hi. destruct Hi as (j & <- & Hj). apply zrange_In in Hj. destruct (P2 j Hj) as (<- & _). apply S2; lia. }
  { split.
    - exists (t_id (vec c narrow).[h - 1]). split; [|symmetry; apply P2; lia].
      apply (Permutation_in _ (linked_ids _ _ _ _ (linked_sym _ _ _ _ GL))). unfold sub. apply in_map, in_map, zrange_In. lia.
    - intros i Hi. apply (Permutation_in _ (linked_ids _ _ _ _ GL)) in Hi. unfold sub in Hi. rewrite map_map in Hi.
      apply in_map_iff in Hi. destruct Hi as (j & <- & Hj). apply zrange_In in Hj. destruct (P2 j Hj) as (<- & _). apply S2; lia. }
  exists (add_block c blk). split; [exact E|]. split; [intros []; cbn; auto|]. split; [intros []; reflexivity|].
  exists [blk]. eexists. split; [reflexivity|]. split; [constructor; [|constructor]; unfold in_range; lia|].
  split.
  { cbn [blocks_seen]. rewrite (block_ids_ok _ _ l h B2 B3); [|lia|]. 2:{ rewrite B1. destruct wide; exact G2. } cbn [obind]. reflexivity. }
  assert (VV : vec (add_block c blk) (b_list blk) = vec c wide) by (rewrite B1; now destruct wide).
  rewrite VV. split; [|split].
  - cbn [map cb_ids]. rewrite map_length, sub_length. unfold sizes. replace (zrange pl (pl + 1)) with [pl].
    + cbn [map]. f_equal. fold l h. lia.
    + unfold zrange. replace (Z.to_nat (pl + 1 - pl)) with 1%nat by lia. unfold zseq. cbn [seq map]. f_equal. lia.
  - cbn [map concat cb_ids]. rewrite app_nil_r. reflexivity.
  - constructor; [exact B4|constructor].
Qed.

Lemma final_split_post c wide narrow pl pr : good pts c wide narrow (P pl) (P pr) -> 0 <= pl -> pr = pl + 2 -> pr < lenZ part ->
  exists c', final_split part c wide narrow pl pr = Ok c' /\ same_frame c c' (P pl) (P pr) /\
    (forall s, dirof c' s = dirof c s) /\ post c c' wide pl pr.
Proof.
  intros G Hpl -> Hpr. destruct G as [G1 G2 G3 GL S1 S2 P1 P2 CR].
  pose proof (part_mono pl (pl + 1) ltac:(lia) ltac:(lia)) as M1. pose proof (part_mono (pl + 1) (pl + 2) ltac:(lia) ltac:(lia)) as M2.
  pose proof (part_high (pl + 2) ltac:(lia)) as MH.
  unfold final_split. rewrite !P_get by (rewrite ?u32_id by lia; lia). cbn [obind]. rewrite !(u32_id (P (pl + 2) - 1)) by lia. rewrite (u32_id (pl + 2 - 1)) by lia.
  replace (pl + 2 - 1) with (pl + 1) by lia.
  set (l := P pl) in *. set (center := P (pl + 1)) in *. set (h := P (pl + 2)) in *.
  set (w := vec c wide) in *. set (n := vec c narrow) in *. rewrite vrange_ok by lia. cbn [obind].
  pose proof (linked_sym _ _ _ _ GL) as GS.
  destruct (find_sides n l center h) as (l1 & l2 & r1 & r2 & -> & -> & (A1 & A2 & A3) & (B1 & B2 & B3) & (C1 & C2 & C3) & (D1 & D2 & D3)); try lia.
  { exists (t_o w.[l]). destruct (GL l ltac:(lia)) as (X & _ & Z0). split; [exact X|]. fold n. lia. }
  { exists (t_o w.[center]). destruct (GL center ltac:(lia)) as (X & _ & Z0). split; [exact X|]. fold n. lia. }
  rewrite (u32_id (center - 1)) by lia. rewrite !(u32_id l1), !(u32_id l2), !(u32_id r1), !(u32_id r2) by lia.
  assert (IDLO : forall i, l <= i < h -> t_o n.[i] < center -> In (t_id n.[i]) (map t_id (sub w l center))).
  { intros i Hi Lo. destruct (GS i Hi) as (X & Y & _). rewrite <- Y. unfold sub. apply in_map, in_map, zrange_In. fold n in X. lia. }
  assert (IDHI : forall i, l <= i < h -> center <= t_o n.[i] -> In (t_id n.[i]) (map t_id (sub w center h))).
  { intros i Hi Lo. destruct (GS i Hi) as (X & Y & _). rewrite <- Y. unfold sub. apply in_map, in_map, zrange_In. fold n in X. lia. }
  assert (ATLO : forall i, In i (map t_id (sub w l center)) -> exists k, l <= k < h /\ t_o n.[k] < center /\ t_id n.[k] = i).
  { intros i Hi. unfold sub in Hi. rewrite map_map in Hi. apply in_map_iff in Hi. destruct Hi as (j & <- & Hj). apply zrange_In in Hj.
    destruct (GL j ltac:(lia)) as (X & Y & Z0). fold n w in X, Y, Z0. exists (t_o w.[j]). split; [exact X|]. split; [lia|exact Y]. }
  assert (ATHI : forall i, In i (map t_id (sub w center h)) -> exists k, l <= k < h /\ center <= t_o n.[k] /\ t_id n.[k] = i).
  { intros i Hi. unfold sub in Hi. rewrite map_map in Hi. apply in_map_iff in Hi. destruct Hi as (j & <- & Hj). apply zrange_In in Hj.
    destruct (GL j ltac:(lia)) as (X & Y & Z0). fold n w in X, Y, Z0. exists (t_o w.[j]). split; [exact X|]. split; [lia|exact Y]. }
  destruct (emit_ok c wide narrow l center l1 r1) as (blk1 & E1 & X1 & X2 & X3 & X4); try assumption; fold n w; try lia.
  { intros i j Hi Hij Hj. apply S1; lia. } { intros i Hi. apply P1. lia. }
  { split.
    - exists (t_id n.[l1]). split; [apply IDLO; lia|symmetry; apply P2; lia].
    - intros i Hi. destruct (ATLO i Hi) as (k & Hk & Ok' & <-). destruct (P2 k Hk) as (<- & _). pose proof (A3 k Hk Ok'). apply S2; lia. }
  { split.
    - exists (t_id n.[r1]). split; [apply IDLO; lia|symmetry; apply P2; lia].
    - intros i Hi. destruct (ATLO i Hi) as (k & Hk & Ok' & <-). destruct (P2 k Hk) as (<- & _). pose proof (C3 k Hk Ok'). apply S2; lia. }
  rewrite E1. cbn [obind].
  assert (VW : forall s, vec (add_block c blk1) s = vec c s) by (intros []; reflexivity).
  assert (DW : forall s, dirof (add_block c blk1) s = dirof c s) by (intros []; reflexivity).
  destruct (emit_ok (add_block c blk1) wide narrow center h l2 r2) as (blk2 & E2 & Y1 & Y2 & Y3 & Y4); rewrite ?VW, ?DW; try assumption; fold n w; try lia.
  { intros i j Hi Hij Hj. apply S1; lia. } { intros i Hi. apply P1. lia. }
  { split.
    - exists (t_id n.[l2]). split; [apply IDHI; lia|symmetry; apply P2; lia].
    - intros i Hi. destruct (ATHI i Hi) as (k & Hk & Ok' & <-). destruct (P2 k Hk) as (<- & _). pose proof (B3 k Hk Ok'). apply S2; lia. }
  { split.
    - exists (t_id n.[r2]). split; [apply IDHI; lia|symmetry; apply P2; lia].
    - intros i Hi. destruct (ATHI i Hi) as (k & Hk & Ok' & <-). destruct (P2 k Hk) as (<- & _). pose proof (D3 k Hk Ok'). apply S2; lia. }
  rewrite E2. rewrite VW in Y4. fold w in X4, Y4.
  eexists. split; [reflexivity|]. split; [intros []; cbn; auto|]. split; [intros []; reflexivity|].
  exists [blk1; blk2]. eexists. split; [cbn [c_blocks add_block]; now rewrite <- app_assoc|].
  split; [repeat constructor; unfold in_range; lia|].
  assert (VV : forall s, vec (add_block (add_block c blk1) blk2) s = vec c s) by (intros []; reflexivity).
  split.
  { cbn [blocks_seen]. rewrite (block_ids_ok _ blk1 l center X2 X3); [|lia|]. 2:{ rewrite X1, VV. fold w. lia. } cbn [obind].
    rewrite (block_ids_ok _ blk2 center h Y2 Y3); [|lia|]. 2:{ rewrite Y1, VV. fold w. lia. } cbn [obind]. rewrite !VV, X1, Y1. fold w. reflexivity. }
  split; [|split].
  - cbn [map cb_ids]. rewrite !map_length, !sub_length. unfold sizes. replace (zrange pl (pl + 2)) with [pl; pl + 1].
    + cbn [map]. replace (pl + 1 + 1) with (pl + 2) by lia. fold l center h. f_equal; [lia|]. f_equal. lia.
    + unfold zrange. replace (Z.to_nat (pl + 2 - pl)) with 2%nat by lia. unfold zseq. cbn [seq map]. now rewrite Z.add_0_r.
  - cbn [map concat cb_ids]. rewrite app_nil_r, <- map_app, <- sub_app by lia. fold l h. reflexivity.
  - constructor; [exact X4|constructor; [exact Y4|constructor]].
Qed.

Lemma decide_post : forall fuel c v1 v2 spare pl pr,
  v1 <> v2 -> v1 <> spare -> v2 <> spare -> 0 <= pl < pr -> pr < lenZ part -> pr - pl <= Z.of_nat fuel ->
  good pts c v1 v2 (P pl) (P pr) -> (use_sort = false -> P pr <= lenZ (vec c spare)) ->
  exists c', decide_split srt use_sort part fuel c v1 v2 spare pl pr = Ok c' /\ same_frame c c' (P pl) (P pr) /\
    dirof c' v1 = dirof c v1 /\ dirof c' v2 = dirof c v2 /\ post c c' v1 pl pr.
Proof.
  induction fuel as [|k IH]; intros c v1 v2 spare pl pr N12 N1s N2s Hp Hpr Hf G HS; [lia|]. cbn [decide_split].
  pose proof (part_mono pl pr Hp Hpr) as M. pose proof (part_high pr ltac:(lia)) as MH. pose proof (P_nonneg pl ltac:(lia)) as M0.
  rewrite !P_get by lia. cbn [obind]. rewrite (u32_id (P pr - 1)) by lia. pose proof (g_1 _ _ _ _ _ _ G) as L1. pose proof (g_2 _ _ _ _ _ _ G) as L2.
  rewrite !vget_at by lia. cbn [obind].
  assert (SP : forall wide narrow, wide <> narrow -> wide <> spare -> narrow <> spare -> good pts c wide narrow (P pl) (P pr) ->
    exists c', split srt use_sort part (decide_split srt use_sort part k) c wide narrow spare pl pr = Ok c' /\ same_frame c c' (P pl) (P pr) /\
    dirof c' wide = dirof c wide /\ dirof c' narrow = dirof c narrow /\ post c c' wide pl pr).
  { clear v1 v2 N12 N1s N2s G L1 L2. intros wide narrow N12 N1s N2s G. unfold split. rewrite !P_get by lia. cbn [obind].
    rewrite (u32_id (P pr - 1)), (u32_id (pr - pl)) by lia.
    destruct (Z.eqb_spec (pr - pl) 1) as [E1|E1].
    { destruct (one_block_post c wide narrow pl pr G) as (c' & A & B & C & D); try lia. exists c'. rewrite A. auto. }
    destruct (Z.eqb_spec (pr - pl) 2) as [E2|E2].
    { destruct (final_split_post c wide narrow pl pr G) as (c' & A & B & C & D); try lia. exists c'. rewrite A. auto. }
    rewrite (u32_id (pl + pr)) by lia. set (pc := (pl + pr) / 2).
    assert (HC : pl < pc < pr) by (unfold pc; pose proof (Z.div_mod (pl + pr) 2 ltac:(lia)); pose proof (Z.mod_pos_bound (pl + pr) 2 ltac:(lia)); lia).
    pose proof (part_mono pl pc ltac:(lia) ltac:(lia)) as Ma. pose proof (part_mono pc pr ltac:(lia) ltac:(lia)) as Mb.
    rewrite P_get by lia. cbn [obind].
    destruct (rearrange_ok pts srt srt_ok use_sort c wide narrow spare (P pl) (P pc) (P pr)) as (c1 & ER & FR & BR & DR & GA & GB & IDS); try assumption; try lia.
    rewrite ER. cbn [obind]. cbn zeta in GA, GB, IDS. set (c2 := set_dir c1 spare (dirof c1 narrow)) in *.
    set (act := if use_sort then narrow else spare) in *. set (oth := if use_sort then spare else narrow).
    assert (RR : forall x a b, (if use_sort then let! c3 := decide_split srt use_sort part k x wide narrow spare pl a in decide_split srt use_sort part k c3 wide narrow spare a b
                 else let! c3 := decide_split srt use_sort part k x wide spare narrow pl a in decide_split srt use_sort part k c3 wide spare narrow a b) =
                 (let! c3 := decide_split srt use_sort part k x wide act oth pl a in decide_split srt use_sort part k c3 wide act oth a b)).
    { intros. unfold act, oth. now destruct use_sort. }
    rewrite RR. clear RR.
    assert (NA : wide <> act /\ wide <> oth /\ act <> oth) by (unfold act, oth; destruct use_sort; auto). destruct NA as (NA1 & NA2 & NA3).
    assert (F2 : same_frame c c2 (P pl) (P pr)).
    { intros s. unfold c2. rewrite vec_set_dir. apply FR. }
    assert (HO : forall x q, same_frame c x (P pl) (P pr) -> P q <= P pr -> use_sort = false -> P q <= lenZ (vec x oth)).
    { intros x q Fx Hq E. destruct (Fx oth) as (-> & _). specialize (HS E). pose proof (g_2 _ _ _ _ _ _ G). unfold oth. rewrite E. lia. }
    destruct (IH c2 wide act oth pl pc NA1 NA2 NA3) as (c3 & E3 & F3 & D3a & D3b & (bs1 & seen1 & K1 & K2 & K3 & K4 & K5 & K6)); try assumption; try lia.
    rewrite E3. cbn [obind].
    assert (GB' : good pts c3 wide act (P pc) (P pr)) by (eapply good_frame; [exact GB|exact F3|lia|exact D3a|exact D3b]).
    assert (FC3 : same_frame c c3 (P pl) (P pr)) by (eapply frame_trans; [exact F2|eapply frame_wider; [exact F3|lia|lia]]).
    destruct (IH c3 wide act oth pc pr NA1 NA2 NA3) as (c4 & E4 & F4 & D4a & D4b & (bs2 & seen2 & Q1 & Q2 & Q3 & Q4 & Q5 & Q6)); try assumption; try lia.
    { intros E. apply HO; auto. lia. }
    rewrite E4. cbn [obind].
    exists (set_dir c4 narrow (dirof c1 narrow)). split; [reflexivity|].
    split; [|split; [|split]].
    - intros s. rewrite vec_set_dir. refine (frame_trans c c3 c4 _ _ FC3 _ s). eapply frame_wider; [exact F4|lia|lia].
    - rewrite dir_set_other by assumption. rewrite D4a, D3a. unfold c2. rewrite dir_set_other by assumption. apply DR.
    - rewrite dir_set_same. apply DR.
    - assert (AG : forall b, blocks_seen (set_dir c4 narrow (dirof c1 narrow)) b = blocks_seen c4 b).
      { intros b. induction b as [|x b IHb]; [reflexivity|]. cbn [blocks_seen]. rewrite IHb. unfold block_ids. now rewrite vec_set_dir. }
      exists (bs1 ++ bs2), (seen1 ++ seen2). split; [|split; [|split; [|split; [|split]]]].
      + rewrite blocks_set_dir, Q1, K1. unfold c2. rewrite blocks_set_dir, BR. now rewrite app_assoc.
      + apply Forall_app. split; [eapply Forall_impl; [|exact K2]|eapply Forall_impl; [|exact Q2]]; unfold in_range; intros; lia.
      + rewrite AG. apply blocks_seen_app; [|exact Q3]. rewrite <- K3. apply (blocks_seen_agree _ _ (P pl) (P pc)); [|exact M0|exact K2].
        apply (frame_agree _ _ _ _ _ _ F4); [exact M0|lia].
      + rewrite map_app, K4, Q4. unfold sizes. rewrite <- map_app, <- zrange_app by lia. reflexivity.
      + rewrite map_app, concat_app. rewrite <- IDS. rewrite (sub_app _ (P pl) (P pc) (P pr)) by lia. rewrite map_app.
        apply Permutation_app; [exact K5|]. eapply perm_trans; [exact Q5|]. apply Permutation_map.
        rewrite (sub_ext (vec c2 wide) (vec c3 wide)); [reflexivity|]. intros i Hi. symmetry. apply F3; lia.
      + apply Forall_app. auto. }
  match goal with |- context [if ?b then _ else _] => destruct b end.
  - destruct (SP v1 v2) as (c' & A & B & C & D & E); auto.
  - destruct (SP v2 v1) as (c' & A & B & C & D & bs & seen & Q1 & Q2 & Q3 & Q4 & Q5 & Q6); auto using good_sym. exists c'. split; [exact A|]. split; [exact B|].
    split; [exact D|]. split; [exact C|]. exists bs, seen. repeat match goal with |- _ /\ _ => split end; try assumption.
    eapply perm_trans; [exact Q5|]. apply linked_ids. apply (good_sym pts c v1 v2 _ _ G).
Qed.
End Run.

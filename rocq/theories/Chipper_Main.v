(** Chip() as a whole, and a sorting function meeting the requirement on std::sort. *)
From Coq Require Import ZArith List Bool Lia Permutation Sorting.Sorted.
Import ListNotations.
From Verif Require Import Outcome Bytes Float64 Float64_Proofs Header_Model Cached_Model Cached_Proofs Chipper_Model Chipper_Spec Chipper_Lists Chipper_Proofs Chipper_Split Chipper_Run Chipper_Load Chipper_Partition Chipper_Drift.
Local Open Scope Z_scope.
Local Notation length := List.length (only parsing).

(** Insertion sort *)
Fixpoint insert_ref (lt : ptref -> ptref -> bool) (x : ptref) (l : list ptref) : list ptref :=
  match l with [] => [x] | y :: r => if lt y x then y :: insert_ref lt x r else x :: l end.
Fixpoint insertion_sort (lt : ptref -> ptref -> bool) (l : list ptref) : list ptref :=
  match l with [] => [] | x :: r => insert_ref lt x (insertion_sort lt r) end.
Lemma insert_perm lt x l : Permutation (x :: l) (insert_ref lt x l).
Proof.
  induction l as [|y l IH]; cbn [insert_ref]; [reflexivity|]. destruct (lt y x); [|reflexivity].
  rewrite perm_swap. now constructor.
Qed.
Lemma weak_incl lt l m : strict_weak_on lt l -> incl m l -> strict_weak_on lt m.
Proof. intros (A & B & C) I. split; [|split]; eauto. Qed.
Lemma insertion_sort_ok : is_sort insertion_sort.
Proof.
  intros lt l. induction l as [|x l IH]; intros W; cbn [insertion_sort]; [split; constructor|].
  destruct IH as (P & S). { eapply weak_incl; [exact W|]. intros y Hy. now right. }
  split; [rewrite <- insert_perm; now constructor|].
  assert (WS : strict_weak_on lt (x :: insertion_sort lt l)).
  { eapply weak_incl; [exact W|]. intros y [<-|Hy]; [now left|right]. now apply (Permutation_in _ (Permutation_sym P)). }
  clear W P. generalize dependent (insertion_sort lt l). clear l. intros l S W.
  induction S as [|y l S IH F]; cbn [insert_ref]; [repeat constructor|].
  destruct (lt y x) eqn:E.
  - constructor; [apply IH; eapply weak_incl; [exact W|]; intros z [<-|Hz]; [now left|right; now right]|].
    apply Forall_forall. intros z Hz. apply (Permutation_in _ (Permutation_sym (insert_perm lt x l))) in Hz.
    destruct Hz as [<-|Hz]; [|rewrite Forall_forall in F; now apply F].
    destruct W as (I & T & _). destruct (lt x y) eqn:E2; [|reflexivity].
    rewrite <- (I x) by now left. symmetry. apply (T x y x); cbn; auto.
  - constructor; [constructor; assumption|]. constructor; [exact E|]. rewrite Forall_forall in *. intros z Hz.
    destruct W as (_ & _ & N). apply (N z y x); cbn; auto.
Qed.

Lemma mono_from_steps (f : nat -> Z) n : (forall k, (k < n)%nat -> f k < f (S k)) -> forall p q, (p < q)%nat -> (q <= n)%nat -> f p < f q.
Proof.
  intros H p q L. induction L as [|q L IH]; intros Hq; [apply H; lia|]. specialize (IH ltac:(lia)). specialize (H q ltac:(lia)). lia.
Qed.
Lemma P_mono part n : length part = S n -> (forall k, (k < n)%nat -> nth k part 0 < nth (S k) part 0) ->
  forall p q, 0 <= p < q -> q < lenZ part -> P part p < P part q.
Proof. intros L H p q Hp Hq. unfold P. apply (mono_from_steps (fun k => nth k part 0) n H); lia. Qed.

Lemma chip_ok srt junk use_sort threshold count pts :
  is_sort srt -> finite_points pts -> pts <> [] -> lenZ pts < 2 ^ 32 -> 0 < threshold ->
  lenZ pts * blocks_wanted threshold (lenZ pts) <= 2 ^ 50 ->
  (use_sort = false -> lenZ pts <= count) ->
  exists blocks, chipped srt junk use_sort threshold count pts = Ok blocks /\
    Permutation (concat (map cb_ids blocks)) (all_ids pts) /\
    lenZ blocks = blocks_wanted threshold (lenZ pts) /\
    Forall (fun b => lenZ pts / blocks_wanted threshold (lenZ pts) <= lenZ (cb_ids b) <=
                     (lenZ pts + blocks_wanted threshold (lenZ pts) - 1) / blocks_wanted threshold (lenZ pts)) blocks /\
    Forall (exact_bounds pts) blocks.
Proof.
  intros SO FP NE HL HT HB HC. set (n := lenZ pts) in *.
  assert (Hn : 0 < n) by (unfold n; destruct pts; [congruence|cbn [List.length]; lia]).
  pose proof (blocks_wanted_le threshold n HT Hn) as HN. set (N := blocks_wanted threshold n) in *.
  destruct (load_ok srt junk (if use_sort then [] else repeat ref0 (Z.to_nat count)) pts SO FP NE ltac:(fold n; lia)) as (c & EL & G & ES & EB & LX & PX).
  fold n in G. destruct (partition_ok threshold n HT ltac:(lia) HB) as (part & EP & LP & P0 & PN & PS). fold N in LP, PN, PS.
  assert (Q1 : 1 <= n / N) by (apply Z.div_le_lower_bound; lia).
  assert (MONO := P_mono part (Z.to_nat N) LP ltac:(intros k Hk; specialize (PS k Hk); lia)).
  assert (PLAST : P part N = n) by exact PN.
  assert (PHI : forall p, 0 <= p < lenZ part -> P part p < 2 ^ 32).
  { intros p Hp. destruct (Z.eq_dec p N) as [->|]; [lia|]. pose proof (MONO p N ltac:(lia) ltac:(lia)). lia. }
  assert (LEN : lenZ part <= 2 ^ 31).
  { assert (N <= 2 ^ 25). { destruct (Z.le_gt_cases N (2 ^ 25)) as [|GT]; [assumption|]. nia. } lia. }
  unfold chipped, chip_run. rewrite EL. cbn [obind]. rewrite LX. fold n. rewrite (u32_id n) by lia. rewrite EP. cbn [obind].
  rewrite LP. rewrite (u32_id (Z.of_nat (S (Z.to_nat N)) - 1)) by lia. replace (Z.of_nat (S (Z.to_nat N)) - 1) with N by lia.
  destruct (decide_post pts srt SO use_sort part MONO P0 PHI LEN (S (Z.to_nat N)) c SX SY SS 0 N) as (c' & ED & _ & _ & _ & bs & seen & B1 & B2 & B3 & B4 & B5 & B6);
    try discriminate; try lia.
  { rewrite PLAST. replace (P part 0) with 0 by (symmetry; exact P0). exact G. }
  { intros E. rewrite PLAST. cbn [vec]. rewrite ES, E, repeat_length. specialize (HC E). lia. }
  rewrite ED. cbn [obind]. rewrite B1, EB. cbn [app]. exists seen. split; [exact B3|].
  assert (SZ : map (fun b => lenZ (cb_ids b)) seen = sizes part 0 N) by exact B4.
  split; [|split; [|split]].
  - eapply perm_trans; [exact B5|]. rewrite PLAST. replace (P part 0) with 0 by (symmetry; exact P0). cbn [vec].
    replace n with (lenZ (c_x c)) by (unfold n; lia). rewrite sub_all. exact PX.
  - apply (f_equal (@List.length Z)) in SZ. unfold sizes in SZ. rewrite !map_length, zrange_length in SZ. lia.
  - apply Forall_forall. intros b Hb. assert (I : In (lenZ (cb_ids b)) (sizes part 0 N)) by (rewrite <- SZ; now apply (in_map (fun b => lenZ (cb_ids b)))).
    unfold sizes in I. apply in_map_iff in I. destruct I as (p & <- & Hp). apply zrange_In in Hp. specialize (PS (Z.to_nat p) ltac:(lia)).
    unfold P. replace (Z.to_nat (p + 1)) with (S (Z.to_nat p)) by lia. exact PS.
  - exact B6.
Qed.

(** a file of 2^32 - 6 points in blocks of 512: one point is in no block *)
Lemma chip_huge srt junk use_sort count pts blocks :
  is_sort srt -> finite_points pts -> lenZ pts = 2 ^ 32 - 6 ->
  chipped srt junk use_sort 512 count pts = Ok blocks -> lenZ (concat (map cb_ids blocks)) = 2 ^ 32 - 7.
Proof.
  intros SO FP HL E. unfold chipped, chip_run in E.
  destruct (load_ok srt junk (if use_sort then [] else repeat ref0 (Z.to_nat count)) pts SO FP) as (c & EL & _ & _ & EB & LX & _).
  { intros ->. cbn in HL. lia. } { lia. }
  rewrite EL in E. cbn [obind] in E. rewrite LX, HL in E. rewrite u32_id in E by lia.
  assert (EX : exists N, N = 8388608) by eauto. destruct EX as (N & EN).
  destruct (huge_partition (2 ^ 32 - 6) N eq_refl EN) as (part & EP & LP & P0 & PN & PR & PS).
  rewrite EP in E. cbn [obind] in E. rewrite LP in E. clear EP EL HL.
  rewrite (u32_id (Z.of_nat (S (Z.to_nat N)) - 1)) in E by lia. replace (Z.of_nat (S (Z.to_nat N)) - 1) with N in E by lia.
  apply obind_ok in E. destruct E as (c' & ED & ESN).
  assert (MONO := P_mono part (Z.to_nat N) LP PS).
  assert (RNG : forall p, 0 <= p < lenZ part -> 0 <= P part p < 2 ^ 32) by (intros p Hp; apply PR; lia).
  assert (LEN : lenZ part <= 2 ^ 31) by lia. assert (H0N : 0 <= 0 < N) by lia. assert (HNL : N < lenZ part) by lia.
  pose proof (decide_total srt use_sort part MONO RNG LEN _ _ _ _ _ _ _ _ H0N HNL ED) as TOT.
  destruct TOT as (bs & B1 & B2 & B3). rewrite B1, EB in ESN. cbn [app] in ESN. rewrite (seen_total _ _ B3 _ ESN), B2.
  unfold P. rewrite PN. change (Z.to_nat 0) with 0%nat. rewrite P0. lia.
Qed.

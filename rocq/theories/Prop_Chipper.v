(** C36, C37, C38: the chipper. *)
From Coq Require Import ZArith List Bool Lia Permutation.
Import ListNotations.
From Verif Require Import Outcome Bytes Float64 Float64_Proofs Cached_Model Chipper_Model Chipper_Spec Chipper_Lists Chipper_Run Chipper_Load Chipper_Partition Chipper_Main.
Local Open Scope Z_scope.
Local Notation length := List.length (only parsing).

(** The runs the theorems are about: finite coordinates, at least one point, a
    positive threshold, a file whose header counts (at least) the points read, and
    not so many points and blocks that the floating-point total of the block
    boundaries drifts. *)
Record chip_input (use_sort : bool) (threshold count : Z) (pts : list (f64 * f64)) : Prop := mkInput {
  ci_fin : finite_points pts;
  ci_some : 1 <= Z.of_nat (length pts) < 2 ^ 32;
  ci_thr : 0 < threshold;
  ci_drift : Z.of_nat (length pts) * blocks_wanted threshold (Z.of_nat (length pts)) <= 2 ^ 50;
  ci_count : use_sort = false -> Z.of_nat (length pts) <= count }.

Lemma chip_input_ok srt junk use_sort threshold count pts : is_sort srt -> chip_input use_sort threshold count pts ->
  exists blocks, chipped srt junk use_sort threshold count pts = Ok blocks /\
    Permutation (concat (map cb_ids blocks)) (all_ids pts) /\
    Z.of_nat (length blocks) = blocks_wanted threshold (Z.of_nat (length pts)) /\
    Forall (fun b => Z.of_nat (length pts) / blocks_wanted threshold (Z.of_nat (length pts)) <= Z.of_nat (length (cb_ids b)) <=
                     (Z.of_nat (length pts) + blocks_wanted threshold (Z.of_nat (length pts)) - 1) / blocks_wanted threshold (Z.of_nat (length pts))) blocks /\
    Forall (exact_bounds pts) blocks.
Proof.
  intros SO [A B C D E]. apply chip_ok; auto; [|lia]. intros ->. cbn in B. lia.
Qed.

Lemma NoDup_app_both {A} (a b : list A) : NoDup (a ++ b) -> NoDup a /\ NoDup b.
Proof.
  induction a as [|x a IH]; cbn [app]; intros H; [split; [constructor|exact H]|]. inversion H as [|? ? N D]; subst. destruct (IH D). split; [|assumption].
  constructor; [|assumption]. intros I. apply N, in_or_app. now left.
Qed.
(** C36.  Every point is in exactly one block: the ids of all blocks together are
    0, 1, ..., n-1, each once.  Missing from the full property: the empty file and
    files past the drift bound, both refuted below. *)
Theorem C36_every_point_in_one_block_partial srt junk use_sort threshold count pts : is_sort srt -> chip_input use_sort threshold count pts ->
  exists blocks, chipped srt junk use_sort threshold count pts = Ok blocks /\
    Permutation (concat (map cb_ids blocks)) (all_ids pts).
Proof. intros SO CI. destruct (chip_input_ok srt junk _ _ _ _ SO CI) as (blocks & A & B & _). eauto. Qed.

(** The same, point by point. *)
Theorem C36_point_in_exactly_one_block_partial srt junk use_sort threshold count pts i : is_sort srt -> chip_input use_sort threshold count pts ->
  0 <= i < Z.of_nat (length pts) ->
  exists blocks k, chipped srt junk use_sort threshold count pts = Ok blocks /\ (k < length blocks)%nat /\
    In i (cb_ids (nth k blocks (mkCB [] f64_zero f64_zero f64_zero f64_zero))) /\
    (forall j, (j < length blocks)%nat -> In i (cb_ids (nth j blocks (mkCB [] f64_zero f64_zero f64_zero f64_zero))) -> j = k) /\
    NoDup (cb_ids (nth k blocks (mkCB [] f64_zero f64_zero f64_zero f64_zero))).
Proof.
  intros SO CI Hi. destruct (chip_input_ok srt junk _ _ _ _ SO CI) as (blocks & A & B & _). exists blocks.
  set (d := mkCB [] f64_zero f64_zero f64_zero f64_zero).
  assert (ND : NoDup (concat (map cb_ids blocks))) by (apply (Permutation_NoDup (Permutation_sym B)), zseq_NoDup).
  assert (I : In i (concat (map cb_ids blocks))) by (apply (Permutation_in _ (Permutation_sym B)), zseq_In; lia).
  enough (X : exists k, (k < length blocks)%nat /\ In i (cb_ids (nth k blocks d)) /\
    (forall j, (j < length blocks)%nat -> In i (cb_ids (nth j blocks d)) -> j = k) /\ NoDup (cb_ids (nth k blocks d))).
  { destruct X as (k & X). exists k. rewrite A. tauto. }
  clear -ND I. induction blocks as [|b blocks IH]; cbn [map concat] in *; [contradiction|].
  destruct (NoDup_app_both _ _ ND) as (ND1 & ND2).
  assert (DJ : In i (cb_ids b) -> ~ In i (concat (map cb_ids blocks))).
  { clear -ND. induction (cb_ids b) as [|y l IHl]; [contradiction|]. cbn [app] in ND. inversion ND as [|? ? N1 N2]; subst. intros [->|H]; [|auto].
    intros H. apply N1. apply in_or_app. now right. }
  assert (IN : forall j, (j < length blocks)%nat -> In i (cb_ids (nth j blocks d)) -> In i (concat (map cb_ids blocks))).
  { intros j Hj H. apply in_concat. exists (cb_ids (nth j blocks d)). split; [|exact H]. apply in_map, nth_In, Hj. }
  apply in_app_or in I. destruct I as [I|I].
  - exists 0%nat. cbn [nth List.length]. split; [lia|]. split; [exact I|]. split; [|exact ND1]. intros [|j] Hj H; [reflexivity|]. exfalso. apply (DJ I). apply (IN j); [lia|exact H].
  - destruct (IH ND2 I) as (k & K1 & K2 & K3 & K4). exists (S k). cbn [nth List.length]. split; [lia|]. split; [exact K2|]. split; [|exact K4].
    intros [|j] Hj H; [exfalso; now apply DJ|]. f_equal. apply K3; [lia|exact H].
Qed.

(** C37.  There are ceil(n / threshold) blocks, none with more than [threshold]
    points, and their sizes differ by at most one. *)
Theorem C37_block_sizes_partial srt junk use_sort threshold count pts : is_sort srt -> chip_input use_sort threshold count pts ->
  exists blocks, chipped srt junk use_sort threshold count pts = Ok blocks /\
    Z.of_nat (length blocks) = blocks_wanted threshold (Z.of_nat (length pts)) /\
    (forall b, In b blocks -> 1 <= Z.of_nat (length (cb_ids b)) <= threshold) /\
    (forall a b, In a blocks -> In b blocks -> Z.of_nat (length (cb_ids a)) <= Z.of_nat (length (cb_ids b)) + 1).
Proof.
  intros SO CI. destruct (chip_input_ok srt junk _ _ _ _ SO CI) as (blocks & A & _ & C & D & _). exists blocks. split; [exact A|]. split; [exact C|].
  destruct CI as [_ H1 H2 _ _]. set (n := Z.of_nat (length pts)) in *. pose proof (blocks_wanted_le threshold n H2 ltac:(lia)) as HN.
  assert (UP : n <= blocks_wanted threshold n * threshold).
  { unfold blocks_wanted. pose proof (Z.div_mod (n + threshold - 1) threshold ltac:(lia)). pose proof (Z.mod_pos_bound (n + threshold - 1) threshold H2). lia. }
  set (N := blocks_wanted threshold n) in *.
  assert (Q1 : 1 <= n / N) by (apply Z.div_le_lower_bound; lia).
  assert (Q2 : (n + N - 1) / N <= threshold) by (apply Z.lt_succ_r, Z.div_lt_upper_bound; lia).
  assert (Q3 : (n + N - 1) / N <= n / N + 1).
  { replace (n / N + 1) with ((n + 1 * N) / N) by (apply Z.div_add; lia). apply Z.div_le_mono; lia. }
  rewrite Forall_forall in D. split.
  - intros b Hb. specialize (D b Hb). cbn beta in D. lia.
  - intros a b Ha Hb. pose proof (D a Ha) as X. pose proof (D b Hb) as Y. cbn beta in X, Y. lia.
Qed.

(** C38.  The bounds of a block are attained by its points and no point of the
    block is outside them. *)
Theorem C38_exact_bounds_partial srt junk use_sort threshold count pts : is_sort srt -> chip_input use_sort threshold count pts ->
  exists blocks, chipped srt junk use_sort threshold count pts = Ok blocks /\ forall b, In b blocks -> exact_bounds pts b.
Proof.
  intros SO CI. destruct (chip_input_ok srt junk _ _ _ _ SO CI) as (blocks & A & _ & _ & _ & D). exists blocks. split; [exact A|]. now apply Forall_forall.
Qed.

(** Chipping a file without points reads outside the point lists. *)
Theorem C36_empty_file_refuted srt junk use_sort threshold count : is_sort srt -> 0 < threshold ->
  chipped srt junk use_sort threshold count [] = UB UBOutOfBounds.
Proof.
  intros SO HT. assert (W : forall lt, strict_weak_on lt []) by (intros lt; split; [|split]; intros; contradiction).
  assert (E : forall lt, srt lt [] = []) by (intros lt; apply Permutation_nil; apply (SO lt [] (W lt))).
  unfold chipped, chip_run, load. cbn [map numbered]. rewrite !E. cbn [relink obind]. rewrite !E. cbn [relink obind c_x List.length].
  change (u32 (Z.of_nat 0)) with 0. unfold partition. rewrite num_partitions_ok by lia. cbn [obind].
  replace (blocks_wanted threshold 0) with 0 by (unfold blocks_wanted; symmetry; apply Z.div_small; lia). reflexivity.
Qed.

(** 2^32 - 6 points in blocks of 512: whatever the points and the sort, the run
    does not put every point in a block (the last boundary computed is one short). *)
Theorem C36_huge_file_refuted srt junk use_sort count pts : is_sort srt -> finite_points pts -> Z.of_nat (length pts) = 2 ^ 32 - 6 ->
  ~ exists blocks, chipped srt junk use_sort 512 count pts = Ok blocks /\ Permutation (concat (map cb_ids blocks)) (all_ids pts).
Proof.
  intros SO FP HL (blocks & E & P). pose proof (chip_huge _ _ _ _ _ _ SO FP HL E) as T. apply Permutation_length in P. unfold all_ids in P. rewrite zseq_length in P. lia.
Qed.

(** A threshold of zero divides by zero. *)
Theorem C37_zero_threshold_refuted srt junk use_sort count pts : is_sort srt -> finite_points pts -> 1 <= Z.of_nat (length pts) < 2 ^ 32 ->
  chipped srt junk use_sort 0 count pts = UB UBDivZero.
Proof.
  intros SO FP HL. unfold chipped, chip_run.
  destruct (load_ok srt junk (if use_sort then [] else repeat ref0 (Z.to_nat count)) pts SO FP) as (c & -> & _); [intros ->; cbn in HL; lia|lia|]. reflexivity.
Qed.

(** ** The hypotheses can be met *)
Definition ten_points : list (f64 * f64) :=
  map (fun p => (f64_of_Z (fst p), f64_of_Z (snd p)))
    [(3, 40); (17, 2); (8, 8); (3, 9); (21, 14); (5, 5); (30, 6); (12, 31); (8, 27); (1, 1)].
Example a_sort_exists : is_sort insertion_sort. Proof. exact insertion_sort_ok. Qed.
Lemma ten_points_ok use_sort : chip_input use_sort 3 10 ten_points.
Proof.
  split; try (cbn [List.length ten_points map]; lia).
  - unfold finite_points, ten_points. cbn [map fst snd]. repeat (constructor; [split; reflexivity|]). constructor.
  - vm_compute. discriminate.
Qed.
Example ten_points_blocks_sorting :
  match chipped insertion_sort 77 true 3 10 ten_points with Ok l => map cb_ids l | _ => [] end = [[9; 5; 2]; [1; 6]; [3; 4; 8]; [7; 0]].
Proof. vm_compute. reflexivity. Qed.
Example ten_points_blocks_copying :
  match chipped insertion_sort 77 false 3 10 ten_points with Ok l => map cb_ids l | _ => [] end = [[9; 5; 2]; [1; 6]; [3; 4; 8]; [7; 0]].
Proof. vm_compute. reflexivity. Qed.
Print Assumptions C36_every_point_in_one_block_partial.
Print Assumptions C36_point_in_exactly_one_block_partial.
Print Assumptions C37_block_sizes_partial.
Print Assumptions C38_exact_bounds_partial.
Print Assumptions C36_empty_file_refuted.
Print Assumptions C36_huge_file_refuted.
Print Assumptions C37_zero_threshold_refuted.

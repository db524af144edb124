From Coq Require Import Arith List Bool Lia Permutation.
Import ListNotations.
From Verif Require Import Outcome Col_Model Col_Spec Col_Proofs.

(** ** Where the threads can stop *)
Section Stuck.
Variable c : config.
Hypothesis OK : sensible c.

Lemma filter_len T r (l : list nat) : (forall i, i < length l -> nth i l 0 mod T = i mod T) ->
  length (filter (fun k => k mod T =? r) l) = length (filter (fun k => k mod T =? r) (seq 0 (length l))).
Proof.
  induction l as [|x l IH] using rev_ind; intros H; [reflexivity|].
  rewrite app_length. cbn [length]. rewrite Nat.add_1_r, seq_S, !filter_app, !app_length. cbn [Nat.add].
  rewrite <- IH.
  - f_equal. specialize (H (length l)). rewrite app_length, app_nth2, Nat.sub_diag in H by lia. cbn [nth length] in H.
    specialize (H ltac:(lia)). cbn [filter]. rewrite H. destruct (_ =? r); reflexivity.
  - intros i I. specialize (H i). rewrite app_length, app_nth1 in H by lia. apply H. lia.
Qed.

Lemma inv_nodup taken s : Inv c taken s -> NoDup (taken ++ gather opt (slots s) (c_threads c) ++ gather hold (rds s) (c_threads c)).
Proof. intros INV. eapply Permutation_NoDup; [symmetry; apply (i_part _ _ _ INV)|apply seq_NoDup]. Qed.

Lemma reader_asleep s i : asleep c s -> quit s = None -> i < c_threads c -> (exists k, rds s i = RSleep k) \/ rds s i = REnd.
Proof.
  intros A Q I. specialize (A (Reader i) eq_refl). unfold step in A. rewrite Q in A. rewrite (proj2 (Nat.ltb_lt _ _) I) in A.
  unfold r_step in A. destruct (rds s i) as [|k|k|k|]; eauto; exfalso.
  - destruct (dead s); [discriminate|]. destruct (_ <? _); [|discriminate]. destruct (c_opens c (next s)); discriminate.
  - destruct (c_passes c k); discriminate.
  - destruct (dead s); [discriminate|]. destruct (slots s _); discriminate.
Qed.
Lemma writer_asleep s j : asleep c s -> quit s = None -> j < c_entries c -> wrs s j = WSleep \/ wrs s j = WEnd.
Proof.
  intros A Q I. specialize (A (Writer j) eq_refl). unfold step in A. rewrite Q in A. rewrite (proj2 (Nat.ltb_lt _ _) I) in A.
  unfold w_step in A. destruct (wrs s j); auto; exfalso; try discriminate.
  - destruct (dead s); discriminate.
  - destruct (cur s) as [[k vals]|]; [|discriminate]. destruct (vals j); discriminate.
  - destruct (dead s); [discriminate|]. destruct (cur s) as [[k vals]|]; discriminate.
Qed.

(** main never waits for data that nobody will bring *)
Lemma data_comes taken s : Inv c taken s -> quit s = None -> asleep c s -> mn s <> MSleep.
Proof.
  intros INV Q A M. pose proof (i_main _ _ _ INV) as MO. unfold main_ok in MO. rewrite M in MO.
  destruct MO as (C & ST & D & LM & L1 & SL). rewrite (i_wi _ _ _ INV) in SL.
  set (T := c_threads c) in *. set (m := length taken) in *. assert (T1 : 1 <= T) by (unfold T; apply OK).
  assert (TK : forall k, k < next s -> k mod T = m mod T -> In k taken).
  { intros k K R. assert (X : In k (seq 0 (next s))) by (apply in_seq; lia).
    apply (Permutation_in _ (Permutation_sym (i_part _ _ _ INV))) in X. apply in_app_or in X. destruct X as [X|X]; [exact X|exfalso].
    apply in_app_or in X. destruct X as [X|X]; apply gather_In in X; destruct X as (i & I & X).
    - destruct (slots s i) as [q|] eqn:S; [|destruct X]. destruct X as [->|[]]. pose proof (i_slot _ _ _ INV _ _ S) as E. fold T in E.
      rewrite <- E, R, SL in S. discriminate.
    - destruct (reader_asleep s i A Q I) as [(q & E)|E]; rewrite E in X; [|destruct X]. destruct X as [->|[]].
      pose proof (i_rsleep _ _ _ INV _ _ I E) as N. fold T in N. rewrite R in N. contradiction. }
  assert (NX : next s <= m).
  { destruct (Nat.le_gt_cases (next s) m) as [|G]; [assumption|exfalso].
    pose proof (filter_len T (m mod T) taken (i_order _ _ _ INV)) as FL. fold m in FL.
    assert (INC : incl (filter (fun k => k mod T =? m mod T) (seq 0 (S m))) (filter (fun k => k mod T =? m mod T) taken)).
    { intros k K. apply filter_In in K. destruct K as [K R]. apply in_seq in K. apply filter_In. split; [|exact R].
      apply Nat.eqb_eq in R. apply TK; [lia|exact R]. }
    apply NoDup_incl_length in INC; [|apply NoDup_filter, seq_NoDup].
    rewrite FL in INC. rewrite seq_S, filter_app, app_length in INC. cbn [Nat.add filter] in INC. rewrite Nat.eqb_refl in INC. cbn [length] in INC. lia. }
  pose proof (Permutation_length (i_part _ _ _ INV)) as P. rewrite !app_length, seq_length in P. fold T m in P.
  assert (H0 : gather hold (rds s) T = []) by (apply length_zero_iff_nil; lia).
  destruct (reader_asleep s 0 A Q ltac:(lia)) as [(q & E)|E].
  - assert (X : In q (gather hold (rds s) T)) by (apply gather_In; exists 0; rewrite E; cbn; split; [lia|auto]). rewrite H0 in X. destruct X.
  - pose proof (i_rend _ _ _ INV 0 ltac:(lia) E). lia.
Qed.

(** the only way to stop short: main has missed the last wakeup of the writers *)
Lemma stuck taken s : Inv c taken s -> quit s = None -> asleep c s ->
  mn s = MWait /\ (exists k vals, cur s = Some (k, vals)) /\ forall j, j < c_entries c -> wrs s j = WSleep /\ outs s j = taken.
Proof.
  intros INV Q A. pose proof (data_comes _ _ INV Q A) as NS.
  pose proof (i_main _ _ _ INV) as MO. unfold main_ok in MO.
  pose proof (A Main eq_refl) as AM. unfold step in AM. rewrite Q in AM. unfold m_step in AM.
  destruct (mn s) eqn:M; try discriminate; try (now exfalso; apply NS).
  - exfalso. destruct (slots s (wi s)); discriminate.
  - split; [reflexivity|]. destruct MO as (C & ST & _). destruct (cur s) as [[k vals]|] eqn:CU; [|contradiction].
    split; [eauto|]. intros j J. pose proof (i_writer _ _ _ INV j J) as WO. pose proof (i_sleepy _ _ _ INV j J) as SY.
    unfold writer_ok in WO. unfold sleepy in SY. rewrite CU in WO.
    destruct (writer_asleep s j A Q J) as [W|W]; rewrite W in WO, SY.
    + split; [exact W|]. destruct (vals j); [destruct WO|apply WO].
    + congruence.
  - exfalso. destruct (cur s) as [[k vals]|]; [|discriminate]. destruct (no_values c vals); discriminate.
  - exfalso. destruct (forallb (fun j => is_end (wrs s j)) (seq 0 (c_entries c))) eqn:F; [discriminate|]. destruct MO as (C & ST & _).
    assert (X : forallb (fun j => is_end (wrs s j)) (seq 0 (c_entries c)) = true).
    { apply forallb_forall. intros j J. apply in_seq in J. pose proof (i_sleepy _ _ _ INV j ltac:(lia)) as SY. unfold sleepy in SY.
      destruct (writer_asleep s j A Q ltac:(lia)) as [W|W]; rewrite W in *; [congruence|reflexivity]. }
    congruence.
Qed.
End Stuck.

(** ** No schedule goes on for ever *)
Definition mw (p : wpc) : nat := match p with WEnd => 0 | WClear => 0 | WWrite => 1 | WGo => 2 | WSleep => 2 | WCheck => 3 | WTop => 4 | WFlush => 6 end.
Definition mr (p : rpc) : nat := match p with REnd => 0 | RClaim => 1 | RSleep _ => 6 | RPut _ => 7 | RRead _ => 8 end.
Definition mm (p : mpc) : nat := match p with MExit => 0 | MDestroy => 1 | MJoin => 2 | MStop => 3 | MWait => 4 | MCheck => 5 | MLock => 6 | MSleep => 6 | MTake => 7 end.
Definition sum {A} (g : A -> nat) (f : nat -> A) (n : nat) : nat := list_sum (map (fun i => g (f i)) (seq 0 n)).

Lemma sum_S {A} (g : A -> nat) f n : sum g f (S n) = sum g f n + g (f n).
Proof. unfold sum. rewrite seq_S, map_app, list_sum_app. cbn. lia. Qed.
Lemma sum_ext {A} (g : A -> nat) f f' n : (forall i, i < n -> g (f i) = g (f' i)) -> sum g f n = sum g f' n.
Proof. induction n as [|n IH]; intros H; [reflexivity|]. rewrite !sum_S, IH by (intros; apply H; lia). now rewrite H by lia. Qed.
Lemma sum_upd {A} (g : A -> nat) f i x n : i < n -> sum g (upd f i x) n + g (f i) = sum g f n + g x.
Proof.
  induction n as [|n IH]; intros I; [lia|]. rewrite !sum_S. destruct (Nat.eq_dec i n) as [->|N].
  - rewrite upd_same. rewrite (sum_ext g (upd f n x) f n) by (intros; rewrite upd_other by lia; reflexivity). lia.
  - rewrite (upd_other f i x n) by lia. specialize (IH ltac:(lia)). lia.
Qed.
Lemma sum_wake {A} (g : A -> nat) (w : A -> A) f n : (forall a, g (w a) <= S (g a)) -> sum g (fun i => w (f i)) n <= sum g f n + n.
Proof. intros H. induction n as [|n IH]; [cbn; lia|]. rewrite !sum_S. specialize (H (f n)). lia. Qed.
Lemma sum_const {A} (g : A -> nat) f n v : (forall i, i < n -> g (f i) = v) -> sum g f n = n * v.
Proof. induction n as [|n IH]; intros H; [reflexivity|]. rewrite sum_S, IH by (intros; apply H; lia). rewrite H by lia. lia. Qed.

(** files whose values entry j has still to write *)
Definition pend (l : nat) (b : bool) : nat := if b then l else l - 1.
Definition vals_of (s : st) : nat -> bool := match cur s with Some (_, v) => v | None => fun _ => true end.
Definition in_hand (s : st) : nat := match cur s with Some _ => 1 | None => 0 end.
Definition measure (c : config) (s : st) : nat :=
  (match quit s with Some _ => 0 | None => 1 end) + sum mr (rds s) (c_threads c) + 10 * (c_files c - next s)
  + sum mw (wrs s) (c_entries c) + 10 * sum (pend (left s)) (vals_of s) (c_entries c)
  + mm (mn s) + 3 * left s + (c_entries c + c_threads c) * (left s - in_hand s) + (if stopped s then 0 else c_entries c).

Lemma mm_wake p : mm (wake_m p) <= S (mm p).
Proof. destruct p; cbn; lia. Qed.

Section Bound.
Variable c : config.
Hypothesis OK : sensible c.
Ltac proj := cbn [next slots cur stopped dead outs rds wrs mn wi left quit set_r set_w set_m set_quit] in *.

Lemma measure_step taken s ch s' : Inv c taken s -> spurious ch = false -> step c ch s = Some (Ok s') -> measure c s' < measure c s.
Proof.
  intros INV SP. unfold step. destruct (quit s) eqn:Q; [discriminate|].
  destruct ch as [i|j| |i|j|]; try discriminate SP.
  - destruct (Nat.ltb_spec i (c_threads c)) as [I|]; [|discriminate]. unfold r_step.
    pose proof (fun p => sum_upd mr (rds s) i p _ I) as SU.
    destruct (rds s i) as [|k|k|k|] eqn:R; try discriminate; cbn [mr] in SU.
    + destruct (dead s); [discriminate|]. destruct (Nat.ltb_spec (next s) (c_files c)) as [LT|GE].
      * destruct (c_opens c (next s)); intros E; injection E as <-; unfold measure, vals_of, in_hand; proj; rewrite ?Q.
        { specialize (SU (RRead (next s))). cbn [mr] in SU. lia. }
        { lia. }
      * intros E; injection E as <-; unfold measure, vals_of, in_hand; proj; rewrite ?Q. specialize (SU REnd). cbn [mr] in SU. lia.
    + destruct (c_passes c k); intros E; injection E as <-; unfold measure, vals_of, in_hand; proj; rewrite ?Q; [|lia].
      specialize (SU (RPut k)). cbn [mr] in SU. lia.
    + destruct (dead s); [discriminate|]. destruct (slots s _); intros E; injection E as <-; unfold measure, vals_of, in_hand; proj; rewrite ?Q.
      * specialize (SU (RSleep k)). cbn [mr] in SU. lia.
      * specialize (SU RClaim). cbn [mr] in SU. pose proof (mm_wake (mn s)). lia.
  - destruct (Nat.ltb_spec j (c_entries c)) as [J|]; [|discriminate]. unfold w_step.
    pose proof (fun p => sum_upd mw (wrs s) j p _ J) as SU. pose proof (i_writer _ _ _ INV j J) as WO. unfold writer_ok in WO.
    destruct (wrs s j) eqn:W; try discriminate; cbn [mw] in SU.
    + intros E; injection E as <-; unfold measure, vals_of, in_hand; proj; rewrite ?Q.
      specialize (SU (if stopped s then WEnd else WCheck)). destruct (stopped s); cbn [mw] in SU; lia.
    + destruct (dead s); [discriminate|]. cbv zeta. set (b := negb (stopped s) && _). intros E; injection E as <-; unfold measure, vals_of, in_hand; proj; rewrite ?Q.
      specialize (SU (if b then WSleep else WGo)). destruct b; cbn [mw] in SU; lia.
    + intros E; injection E as <-; unfold measure, vals_of, in_hand; proj; rewrite ?Q.
      specialize (SU (if stopped s then WEnd else WWrite)). destruct (stopped s); cbn [mw] in SU; lia.
    + destruct (cur s) as [[k vals]|] eqn:C; [|discriminate]. destruct (vals j); [|discriminate].
      intros E; injection E as <-; unfold measure, vals_of, in_hand; proj; rewrite ?Q, ?C. specialize (SU WClear). cbn [mw] in SU. lia.
    + destruct (dead s); [discriminate|]. destruct (cur s) as [[k vals]|] eqn:C; [|discriminate].
      destruct (vals j) eqn:V; [|destruct WO as [_ []]].
      assert (L1 : 1 <= left s). { pose proof (i_main _ _ _ INV) as MO. unfold main_ok in MO. rewrite C in MO. destruct (mn s); try (decompose [and] MO; discriminate); tauto. }
      intros E; injection E as <-; unfold measure, vals_of, in_hand; proj; rewrite ?Q, ?C. specialize (SU WFlush). cbn [mw] in SU.
      pose proof (sum_upd (pend (left s)) vals j false _ J) as SP2. rewrite V in SP2. cbn [pend] in SP2. lia.
    + intros E; injection E as <-; unfold measure, vals_of, in_hand; proj; rewrite ?Q. specialize (SU WTop). cbn [mw] in SU. pose proof (mm_wake (mn s)). lia.
  - unfold m_step. pose proof (i_main _ _ _ INV) as MO. unfold main_ok in MO.
    destruct (mn s) eqn:M; try discriminate.
    + destruct MO as (C & ST & D & LM & L1). destruct (slots s (wi s)) as [k|]; intros E; injection E as <-; unfold measure, vals_of, in_hand; proj; rewrite ?Q, ?C, ?M; cbn [mm].
      * pose proof (sum_wake mr wake_r (rds s) (c_threads c) ltac:(intros []; cbn; lia)).
        pose proof (sum_wake mw wake_w (wrs s) (c_entries c) ltac:(intros []; cbn; lia)).
        destruct (left s) as [|l]; [lia|]. replace (S l - 0) with (S (S l - 1)) by lia. rewrite (Nat.mul_succ_r (c_entries c + c_threads c)). lia.
      * lia.
    + intros E; injection E as <-; unfold measure, vals_of, in_hand; proj; rewrite ?Q, ?M; cbn [mm]. lia.
    + destruct (cur s) as [[k vals]|] eqn:C; [|discriminate]. destruct MO as (_ & ST & D & LM & L1).
      destruct (no_values c vals) eqn:NV; intros E; injection E as <-; unfold measure, vals_of, in_hand; proj; rewrite ?Q, ?C, ?M; cbn [mm]; [|lia].
      rewrite (sum_const (pend (left s - 1)) (fun _ => true) _ (left s - 1)) by reflexivity.
      rewrite (sum_const (pend (left s)) vals _ (left s - 1)).
      2:{ intros j J. unfold no_values in NV. rewrite forallb_forall in NV. specialize (NV j). rewrite in_seq in NV. specialize (NV ltac:(lia)). now destruct (vals j). }
      rewrite Nat.sub_0_r. destruct (left s) as [|[|l]]; cbn [mm]; lia.
    + destruct MO as (C & ST & D & LM). intros E; injection E as <-; unfold measure, vals_of, in_hand; proj; rewrite ?Q, ?C, ?M, ?ST; cbn [mm].
      pose proof (sum_wake mw wake_w (wrs s) (c_entries c) ltac:(intros []; cbn; lia)). lia.
    + destruct (forallb _ _); [|discriminate]. intros E; injection E as <-; unfold measure, vals_of, in_hand; proj; rewrite ?Q, ?M; cbn [mm]. lia.
    + intros E; injection E as <-; unfold measure, vals_of, in_hand; proj; rewrite ?Q, ?M; cbn [mm]. lia.
    + intros E; injection E as <-; unfold measure, vals_of, in_hand; proj; rewrite ?Q, ?M; cbn [mm]. lia.
Qed.

Lemma run_measure : forall l taken s s', Inv c taken s -> Forall (fun ch => spurious ch = false) l -> run c l s = Some (Ok s') ->
  measure c s' + length l <= measure c s.
Proof.
  induction l as [|ch l IH]; intros taken s s' INV NS; cbn [run].
  - intros E. injection E as <-. cbn. lia.
  - apply Forall_inv in NS as N1. apply Forall_inv_tail in NS.
    destruct (step c ch s) as [r|] eqn:S; [|destruct l; discriminate].
    pose proof (step_inv c OK _ _ _ _ INV S) as H. destruct r as [s1| |]; [|destruct H|destruct l; discriminate].
    destruct H as [t' INV']. intros E. specialize (IH _ _ _ INV' NS E). pose proof (measure_step _ _ _ _ INV N1 S). cbn [length]. lia.
Qed.
Lemma measure_start : measure c (start c) = 1 + c_threads c + 10 * c_files c + 4 * c_entries c + 10 * (c_entries c * c_files c) + 7 + 3 * c_files c + (c_entries c + c_threads c) * c_files c + c_entries c.
Proof.
  unfold measure, start, vals_of, in_hand. proj. cbn [mm].
  rewrite (sum_const mr (fun _ => RClaim) _ 1) by reflexivity. rewrite (sum_const mw (fun _ => WTop) _ 4) by reflexivity.
  rewrite (sum_const (pend (c_files c)) (fun _ => true) _ (c_files c)) by reflexivity. rewrite Nat.sub_0_r. lia.
Qed.
End Bound.

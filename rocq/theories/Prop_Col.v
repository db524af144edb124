(** C69: las2col's threads.  Col_Spec says what is promised. *)
From Coq Require Import Arith List Bool Lia Permutation ZArith.
Import ListNotations.
From Verif Require Import Outcome Col_Model Col_Spec Col_Proofs Col_Live.

Lemma step_quit c ch s s' : step c ch s = Some (Ok s') -> quit s' = Some 0 -> mn s' = MExit.
Proof.
  unfold step. destruct (quit s) eqn:Q; [discriminate|]. intros E X. revert E.
  destruct ch as [i|j| |i|j|].
  - destruct (_ <? _); [|discriminate]. unfold r_step. destruct (rds s i) as [|k|k|k|]; try discriminate.
    + destruct (dead s); [discriminate|]. destruct (_ <? _); [destruct (c_opens c (next s))|]; intros E; injection E as <-; cbn in X; congruence.
    + destruct (c_passes c k); intros E; injection E as <-; cbn in X; congruence.
    + destruct (dead s); [discriminate|]. destruct (slots s _); intros E; injection E as <-; cbn in X; congruence.
  - destruct (_ <? _); [|discriminate]. unfold w_step. destruct (wrs s j); try discriminate.
    1,3,6: intros E; injection E as <-; cbn in X; congruence.
    + destruct (dead s); [discriminate|]. intros E; injection E as <-; cbn in X; congruence.
    + destruct (cur s) as [[k vals]|]; [|discriminate]. destruct (vals j); [|discriminate]. intros E; injection E as <-; cbn in X; congruence.
    + destruct (dead s); [discriminate|]. destruct (cur s) as [[k vals]|]; [|discriminate]. intros E; injection E as <-; cbn in X; congruence.
  - unfold m_step. destruct (mn s) eqn:M; try discriminate.
    + destruct (slots s (wi s)); intros E; injection E as <-; cbn in X; congruence.
    + intros E; injection E as <-; cbn in X; congruence.
    + destruct (cur s) as [[k vals]|]; [|discriminate]. destruct (no_values c vals); intros E; injection E as <-; cbn in X; congruence.
    + intros E; injection E as <-; cbn in X; congruence.
    + destruct (forallb _ _); [|discriminate]. intros E; injection E as <-; cbn in X; congruence.
    + intros E; injection E as <-; cbn in X; congruence.
    + intros E; injection E as <-. exact M.
  - destruct (_ <? _); [|discriminate]. destruct (rds s i); try discriminate; intros E; injection E as <-; cbn in X; congruence.
  - destruct (_ <? _); [|discriminate]. destruct (wrs s j); try discriminate; intros E; injection E as <-; cbn in X; congruence.
  - destruct (mn s); try discriminate; intros E; injection E as <-; cbn in X; congruence.
Qed.
Lemma run_quit c : forall l s s', run c l s = Some (Ok s') -> (quit s = Some 0 -> mn s = MExit) -> quit s' = Some 0 -> mn s' = MExit.
Proof.
  induction l as [|ch l IH]; intros s s'; cbn [run].
  - intros E. injection E as <-. auto.
  - destruct (step c ch s) as [[s1| |]|] eqn:S; try (destruct l; discriminate). intros E _. eapply IH; [exact E|]. intros Q. eapply step_quit; eassumption.
Qed.
Lemma ended c s : reachable c s -> quit s = Some 0 -> mn s = MExit.
Proof. intros [l R] Q. eapply run_quit; [exact R| |exact Q]. discriminate. Qed.

Lemma nodup_front {A} (a b : list A) : NoDup (a ++ b) -> NoDup a.
Proof.
  induction a as [|x a IH]; intros H; [constructor|]. cbn [app] in H. inversion H as [|y l N ND]; subst. constructor; [|auto].
  intros X. apply N, in_or_app. auto.
Qed.
(** main has written everything *)
Lemma complete c taken s : Inv c taken s -> mn s = MExit ->
  Permutation taken (seq 0 (c_files c)) /\ length taken = c_files c /\ next s = c_files c /\ forall j, j < c_entries c -> outs s j = taken.
Proof.
  intros INV M. pose proof (exit_taken _ _ _ INV M) as L. destruct (all_taken _ _ _ INV L) as [A B].
  pose proof (i_part _ _ _ INV) as P. rewrite A, B in P. cbn [app] in P. rewrite app_nil_r in P.
  pose proof (Permutation_length P) as PL. rewrite seq_length in PL. assert (NX : next s = c_files c) by lia. rewrite NX in P.
  split; [exact P|]. split; [exact L|]. split; [exact NX|]. intros j J.
  pose proof (i_writer _ _ _ INV j J) as W. unfold writer_ok in W.
  pose proof (i_main _ _ _ INV) as MO. unfold main_ok in MO. rewrite M in MO. destruct MO as (C & _). rewrite C in W. apply W.
Qed.

(** When the program ends normally, then under every schedule every column holds the
    values of every input file once, in an order that is the same for all columns; the
    file at place i is one of those whose number on the command line is i modulo the
    number of reading threads. *)
Theorem C69_columns : forall c s values, sensible c -> reachable c s -> quit s = Some 0 ->
  exists order, Permutation order (seq 0 (c_files c)) /\
    (forall i, i < c_files c -> nth i order 0 mod c_threads c = i mod c_threads c) /\
    forall j, j < c_entries c -> column values s j = columns_of values order j.
Proof.
  intros c s values OK R Q. destruct (reach_inv c OK s R) as [taken INV].
  destruct (complete c taken s INV (ended c s R Q)) as (P & L & _ & O).
  exists taken. split; [exact P|]. split.
  - intros i I. apply (i_order _ _ _ INV). lia.
  - intros j J. unfold column, columns_of. now rewrite (O j J).
Qed.

(** With one reading thread, or with at least as many as files, it is the order of the
    command line. *)
Theorem C69_in_order : forall c s values, sensible c -> reachable c s -> quit s = Some 0 ->
  c_threads c = 1 \/ c_files c <= c_threads c ->
  forall j, j < c_entries c -> column values s j = columns_of values (seq 0 (c_files c)) j.
Proof.
  intros c s values OK R Q T j J. destruct (reach_inv c OK s R) as [taken INV].
  destruct (complete c taken s INV (ended c s R Q)) as (P & L & NX & O).
  unfold column, columns_of. rewrite (O j J). f_equal. f_equal. destruct T as [T|T].
  - pose proof (i_single _ _ _ INV T) as S1. destruct (all_taken _ _ _ INV L) as [A B]. rewrite T in A, B. cbn in A, B.
    rewrite app_nil_r in A, B. rewrite A, B, NX in S1. cbn [app] in S1. now rewrite app_nil_r in S1.
  - apply nth_ext with (d := 0) (d' := 0); [now rewrite L, seq_length|]. intros i I. rewrite L in I. rewrite seq_nth by exact I. cbn [Nat.add].
    pose proof (i_order _ _ _ INV i ltac:(lia)) as E. rewrite (Nat.mod_small i) in E by lia.
    assert (X : In (nth i taken 0) (seq 0 (c_files c))) by (eapply Permutation_in; [exact P|apply nth_In; lia]).
    apply in_seq in X. now rewrite Nat.mod_small in E by lia.
Qed.

(** At every moment of every run (also when a file cannot be read and exit(1) is called)
    the columns are aligned: they hold the same files in the same order, except that
    those of the file being written may not be there yet in some. *)
Theorem C69_aligned : forall c s values, sensible c -> reachable c s ->
  exists order last, NoDup (order ++ last) /\ (forall k, In k (order ++ last) -> k < c_files c) /\ length last <= 1 /\
    forall j, j < c_entries c -> column values s j = columns_of values order j \/ column values s j = columns_of values (order ++ last) j.
Proof.
  intros c s values OK R. destruct (reach_inv c OK s R) as [taken INV].
  assert (ND : NoDup taken) by (exact (nodup_front _ _ (inv_nodup c taken s INV))).
  assert (LT : forall k, In k taken -> k < c_files c).
  { intros k K. assert (X : In k (seq 0 (next s))) by (eapply Permutation_in; [apply (i_part _ _ _ INV)|apply in_or_app; auto]).
    apply in_seq in X. pose proof (i_next _ _ _ INV). lia. }
  unfold column, columns_of. destruct (cur s) as [[k vals]|] eqn:C.
  - destruct (i_cur _ _ _ INV k vals C) as [t ->]. exists t, [k]. split; [exact ND|]. split; [exact LT|]. split; [cbn; lia|].
    intros j J. pose proof (i_writer _ _ _ INV j J) as W. unfold writer_ok in W. rewrite C in W.
    destruct (vals j); [destruct (wrs s j); try (left; apply app_inj_tail in W; destruct W as [-> _]; reflexivity); try (right; now rewrite W); destruct W|].
    right. destruct W as [-> _]. reflexivity.
  - exists taken, []. rewrite app_nil_r. split; [exact ND|]. split; [exact LT|]. split; [cbn; lia|].
    intros j J. pose proof (i_writer _ _ _ INV j J) as W. unfold writer_ok in W. rewrite C in W. left. destruct W as [-> _]. reflexivity.
Qed.

(** No step of any thread touches a buffer that is not there (a null or freed one), or
    a destroyed mutex, until main has written all columns and destroyed the mutex. *)
Theorem C69_safe_until_teardown : forall c s ch u values, sensible c -> reachable c s -> step c ch s = Some (UB u) ->
  mn s = MExit /\ (exists i, ch = Reader i) /\
  exists order, Permutation order (seq 0 (c_files c)) /\ forall j, j < c_entries c -> column values s j = columns_of values order j.
Proof.
  intros c s ch u values OK R S. destruct (reach_inv c OK s R) as [taken INV]. pose proof (step_inv c OK _ _ _ _ INV S) as H.
  cbn in H. destruct H as (M & i & -> & _). split; [exact M|]. split; [eauto|].
  destruct (complete c taken s INV M) as (P & _ & _ & O). exists taken. split; [exact P|]. intros j J. unfold column, columns_of. now rewrite (O j J).
Qed.
Theorem C69_no_exceptions : forall c s ch e, sensible c -> reachable c s -> step c ch s <> Some (Throw e).
Proof. intros c s ch e OK R S. destruct (reach_inv c OK s R) as [taken INV]. exact (step_inv c OK _ _ _ _ INV S). Qed.

(** Without spurious wakeups every run is finite, with a bound from the command line ... *)
Theorem C69_bounded : forall c l s, sensible c -> Forall (fun ch => spurious ch = false) l -> run c l (start c) = Some (Ok s) ->
  length l <= 8 + c_threads c + 5 * c_entries c + c_files c * (13 + 11 * c_entries c + c_threads c).
Proof.
  intros c l s OK NS R. pose proof (run_measure c OK l [] _ _ (inv_start c OK) NS R) as B. rewrite measure_start in B. lia.
Qed.
(** ... and when nothing can move any more, the process has ended, or main sleeps although
    everything it waits for has happened: all writers have written and wait for more. *)
Theorem C69_stuck : forall c s values, sensible c -> reachable c s -> quit s = None -> asleep c s ->
  mn s = MWait /\ (forall j, j < c_entries c -> wrs s j = WSleep) /\
  exists order last, NoDup (order ++ [last]) /\ forall j, j < c_entries c -> column values s j = columns_of values (order ++ [last]) j.
Proof.
  intros c s values OK R Q A. destruct (reach_inv c OK s R) as [taken INV].
  destruct (stuck c OK taken s INV Q A) as (M & (k & vals & C) & W). split; [exact M|]. split; [intros j J; apply (W j J)|].
  destruct (i_cur _ _ _ INV k vals C) as [t ->]. exists t, k. split.
  - exact (nodup_front _ _ (inv_nodup c _ s INV)).
  - intros j J. unfold column, columns_of. now rewrite (proj2 (W j J)).
Qed.

(** *** Witnesses *)
Definition fine : nat -> bool := fun _ => true.
Definition usual : config := mkConfig 1 1 3 fine fine.    (* las2col -i a.las -o out *)
Definition writes (j : nat) : list choice := map (fun _ => Writer j) (seq 0 8).
Definition reads (i : nat) : list choice := [Reader i; Reader i; Reader i].

(** A normal end: main sleeps before the writers have finished. *)
Definition good_schedule : list choice :=
  reads 0 ++ [Reader 0; Main; Main] ++ writes 0 ++ writes 1 ++ writes 2 ++ [Main; Main]
  ++ flat_map (fun j => [Writer j; Writer j]) [0; 1; 2] ++ [Main; Main; Main].
Example C69_instance : sensible usual /\ exists s, reachable usual s /\ quit s = Some 0 /\ forall j, j < 3 -> outs s j = [0].
Proof.
  split; [unfold sensible, usual; cbn; lia|].
  destruct (run usual good_schedule (start usual)) as [[s| |]|] eqn:R; try (vm_compute in R; discriminate R).
  exists s. split; [exists good_schedule; exact R|].
  assert (E : match run usual good_schedule (start usual) with Some (Ok s) => (quit s, map (outs s) [0; 1; 2]) | _ => (None, []) end = (Some 0, [[0]; [0]; [0]])) by (vm_compute; reflexivity).
  rewrite R in E. injection E as Q O0 O1 O2. split; [exact Q|]. intros [|[|[|j]]] J; assumption || lia.
Qed.

(** It does not always end: for the plainest command line there is a run after which
    nothing can move and the process has not ended. *)
Definition bad_schedule : list choice := reads 0 ++ [Reader 0; Main] ++ writes 0 ++ writes 1 ++ writes 2 ++ [Main].
Lemma all_asleep c s : c_threads c = 1 -> c_entries c = 3 ->
  (match step c (Reader 0) s, step c (Writer 0) s, step c (Writer 1) s, step c (Writer 2) s, step c Main s with None, None, None, None, None => true | _, _, _, _, _ => false end) = true -> asleep c s.
Proof.
  intros T E H ch SP. destruct ch as [i|j| |i|j|]; try discriminate SP.
  - destruct (Nat.ltb_spec i (c_threads c)) as [I|I].
    + assert (i = 0) by lia. subst i. destruct (step c (Reader 0) s); [discriminate H|reflexivity].
    + unfold step. destruct (quit s); [reflexivity|]. now rewrite (proj2 (Nat.ltb_ge _ _) I).
  - destruct (step c (Reader 0) s); [discriminate H|]. destruct (Nat.ltb_spec j (c_entries c)) as [J|J].
    + destruct j as [|[|[|j]]]; [| | |lia].
      * destruct (step c (Writer 0) s); [discriminate H|reflexivity].
      * destruct (step c (Writer 0) s); [discriminate H|]. destruct (step c (Writer 1) s); [discriminate H|reflexivity].
      * destruct (step c (Writer 0) s); [discriminate H|]. destruct (step c (Writer 1) s); [discriminate H|]. destruct (step c (Writer 2) s); [discriminate H|reflexivity].
    + unfold step. destruct (quit s); [reflexivity|]. now rewrite (proj2 (Nat.ltb_ge _ _) J).
  - destruct (step c (Reader 0) s); [discriminate H|]. destruct (step c (Writer 0) s); [discriminate H|]. destruct (step c (Writer 1) s); [discriminate H|].
    destruct (step c (Writer 2) s); [discriminate H|]. destruct (step c Main s); [discriminate H|reflexivity].
Qed.
Theorem C69_ends_refuted : ~ (forall c s, sensible c -> (forall k, c_opens c k = true /\ c_passes c k = true) -> reachable c s -> asleep c s -> quit s <> None).
Proof.
  intros H. destruct (run usual bad_schedule (start usual)) as [[s| |]|] eqn:R; try (vm_compute in R; discriminate R).
  assert (E : match run usual bad_schedule (start usual) with
    Some (Ok s) => (quit s, match step usual (Reader 0) s, step usual (Writer 0) s, step usual (Writer 1) s, step usual (Writer 2) s, step usual Main s with None, None, None, None, None => true | _, _, _, _, _ => false end)
    | _ => (None, false) end = (None, true)) by (vm_compute; reflexivity).
  rewrite R in E. apply pair_equal_spec in E. destruct E as [Q A].
  apply (H usual s).
  - unfold sensible, usual; cbn; lia.
  - intros k. split; reflexivity.
  - exists bad_schedule. exact R.
  - now apply all_asleep.
  - exact Q.
Qed.

(** With two reading threads and three files the third can overtake the first. *)
Definition three_files : config := mkConfig 3 2 1 fine fine.
Definition file_done (n : nat) : list choice := [Main; Main] ++ map (fun _ => Writer 0) (seq 0 n) ++ [Main].
Definition overtaking : list choice :=
  [Reader 0] ++ reads 1 ++ reads 1 (* thread 1 reads files 1 and 2; thread 0 has file 0 *)
  ++ file_done 8 ++ file_done 7 ++ [Reader 0; Reader 0] ++ file_done 7
  ++ [Main; Writer 0; Writer 0; Main; Main; Main].
Theorem C69_order_refuted : ~ (forall c s, sensible c -> reachable c s -> quit s = Some 0 -> forall j, j < c_entries c -> outs s j = seq 0 (c_files c)).
Proof.
  intros H. destruct (run three_files overtaking (start three_files)) as [[s| |]|] eqn:R; try (vm_compute in R; discriminate R).
  assert (E : match run three_files overtaking (start three_files) with Some (Ok s) => (quit s, outs s 0) | _ => (None, []) end = (Some 0, [2; 1; 0])) by (vm_compute; reflexivity).
  rewrite R in E. apply pair_equal_spec in E. destruct E as [Q O].
  assert (X : outs s 0 = seq 0 3).
  { apply (H three_files s); auto. { unfold sensible, three_files; cbn; lia. } { exists overtaking. exact R. } }
  rewrite O in X. discriminate X.
Qed.

(** The reading threads are not joined: one can lock the mutex after main has destroyed it. *)
Definition late_reader : list choice :=
  reads 0 ++ [Main; Main] ++ writes 0 ++ writes 1 ++ writes 2 ++ [Main; Main]
  ++ flat_map (fun j => [Writer j; Writer j]) [0; 1; 2] ++ [Main; Main; Reader 0].
Theorem C69_teardown_refuted : ~ (forall c l, sensible c -> forall u, run c l (start c) <> Some (UB u)).
Proof.
  intros H. apply (H usual late_reader ltac:(unfold sensible, usual; cbn; lia) UBNull). vm_compute. reflexivity.
Qed.

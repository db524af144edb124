From Coq Require Import Arith List Bool Lia Permutation ZArith.
Import ListNotations.
From Verif Require Import Outcome Col_Model Col_Spec.

Definition hold (p : rpc) : list nat := match p with RRead k | RPut k | RSleep k => [k] | _ => [] end.
Definition opt (o : option nat) : list nat := match o with Some k => [k] | None => [] end.
Definition gather {A} (g : A -> list nat) (f : nat -> A) (T : nat) : list nat := flat_map (fun i => g (f i)) (seq 0 T).

Lemma upd_same {A} (f : nat -> A) i x : upd f i x i = x.
Proof. unfold upd. now rewrite Nat.eqb_refl. Qed.
Lemma upd_other {A} (f : nat -> A) i x j : j <> i -> upd f i x j = f j.
Proof. unfold upd. intros N. now rewrite (proj2 (Nat.eqb_neq j i) N). Qed.

Lemma gather_ext {A} g (f f' : nat -> A) T : (forall i, i < T -> g (f i) = g (f' i)) -> gather g f T = gather g f' T.
Proof.
  intros H. unfold gather. induction T as [|T IH]; [reflexivity|].
  rewrite seq_S, !flat_map_app. cbn. rewrite IH by (intros; apply H; lia). now rewrite H by lia.
Qed.
Lemma gather_S {A} g (f : nat -> A) T : gather g f (S T) = gather g f T ++ g (f T).
Proof. unfold gather. rewrite seq_S, flat_map_app. cbn. now rewrite app_nil_r. Qed.
Lemma gather_upd {A} g (f : nat -> A) i x T : i < T -> Permutation (g (f i) ++ gather g (upd f i x) T) (g x ++ gather g f T).
Proof.
  induction T as [|T IH]; intros I; [lia|]. rewrite !gather_S.
  destruct (Nat.eq_dec i T) as [->|N].
  - rewrite upd_same. rewrite (gather_ext g (upd f T x) f T) by (intros; rewrite upd_other by lia; reflexivity).
    rewrite (Permutation_app_comm (gather g f T) (g x)), (Permutation_app_comm (gather g f T) (g (f T))).
    rewrite !app_assoc. apply Permutation_app_tail, Permutation_app_comm.
  - rewrite upd_other by lia. rewrite !app_assoc. apply Permutation_app_tail, IH. lia.
Qed.
Lemma gather_In {A} g (f : nat -> A) T x : In x (gather g f T) <-> exists i, i < T /\ In x (g (f i)).
Proof.
  unfold gather. rewrite in_flat_map. split; intros (i & I & H); exists i; (split; [|exact H]); apply in_seq in I || apply in_seq; lia.
Qed.

(** the writing thread of entry j *)
Definition writer_ok (s : st) (taken : list nat) (j : nat) : Prop :=
  match cur s with
  | None => outs s j = taken /\ match wrs s j with WWrite | WClear => False | WGo => stopped s = true | _ => True end
  | Some (k, vals) =>
      if vals j then match wrs s j with
                     | WClear => outs s j = taken
                     | WSleep | WEnd => False
                     | _ => outs s j ++ [k] = taken
                     end
      else outs s j = taken /\ match wrs s j with WGo | WWrite | WClear => False | _ => True end
  end.
Definition sleepy (c : config) (s : st) (j : nat) : Prop :=
  match wrs s j with WEnd => stopped s = true | WSleep => stopped s = false | _ => True end.

Definition main_ok (c : config) (s : st) (m : nat) : Prop :=
  match mn s with
  | MTake => cur s = None /\ stopped s = false /\ dead s = false /\ m + left s = c_files c /\ 1 <= left s
  | MSleep => cur s = None /\ stopped s = false /\ dead s = false /\ m + left s = c_files c /\ 1 <= left s /\ slots s (wi s) = None
  | MLock | MWait | MCheck => cur s <> None /\ stopped s = false /\ dead s = false /\ m + left s = S (c_files c) /\ 1 <= left s
  | MStop => cur s = None /\ stopped s = false /\ dead s = false /\ m = c_files c
  | MJoin => cur s = None /\ stopped s = true /\ dead s = false /\ m = c_files c
  | MDestroy => cur s = None /\ stopped s = true /\ dead s = false /\ m = c_files c /\ forall j, j < c_entries c -> wrs s j = WEnd
  | MExit => cur s = None /\ stopped s = true /\ m = c_files c /\ forall j, j < c_entries c -> wrs s j = WEnd
  end.

Record Inv (c : config) (taken : list nat) (s : st) : Prop := mkInv {
  i_part : Permutation (taken ++ gather opt (slots s) (c_threads c) ++ gather hold (rds s) (c_threads c)) (seq 0 (next s));
  i_next : next s <= c_files c;
  i_slot : forall i k, slots s i = Some k -> k mod c_threads c = i;
  i_order : forall i, i < length taken -> nth i taken 0 mod c_threads c = i mod c_threads c;
  i_wi : wi s = length taken mod c_threads c;
  i_main : main_ok c s (length taken);
  i_cur : forall k vals, cur s = Some (k, vals) -> exists t, taken = t ++ [k];
  i_writer : forall j, j < c_entries c -> writer_ok s taken j;
  i_sleepy : forall j, j < c_entries c -> sleepy c s j;
  i_rsleep : forall i k, i < c_threads c -> rds s i = RSleep k -> slots s (k mod c_threads c) <> None;
  i_rend : forall i, i < c_threads c -> rds s i = REnd -> next s = c_files c;
  i_single : c_threads c = 1 -> taken ++ opt (slots s 0) ++ hold (rds s 0) = seq 0 (next s) }.

Lemma inv_start c : sensible c -> Inv c [] (start c).
Proof.
  intros (N & T & E). unfold start. split; cbn [next slots cur stopped dead outs rds wrs mn wi left quit]; try discriminate.
  - replace (gather opt _ _) with (@nil nat). 2:{ unfold gather. induction (seq 0 (c_threads c)); [reflexivity|cbn; assumption]. }
    replace (gather hold _ _) with (@nil nat). 2:{ unfold gather. induction (seq 0 (c_threads c)); [reflexivity|cbn; assumption]. }
    constructor.
  - lia.
  - cbn. lia.
  - cbn. symmetry. apply Nat.mod_0_l. lia.
  - cbn. auto.
  - intros j J. unfold writer_ok. cbn. auto.
  - intros j J. exact I.
  - intros _. reflexivity.
Qed.

Section Steps.
Variable c : config.
Hypothesis OK : sensible c.

Lemma T1 : 1 <= c_threads c. Proof. apply OK. Qed.

Ltac proj := cbn [next slots cur stopped dead outs rds wrs mn wi left quit set_r set_w set_m set_quit] in *.

(** nothing but the status changes *)
Lemma inv_quit taken s q : Inv c taken s -> Inv c taken (set_quit s q).
Proof. intros []. split; assumption. Qed.

(** a reader moves without changing anything but its own place *)
Lemma inv_reader taken s i p : i < c_threads c -> Inv c taken s -> hold p = hold (rds s i) ->
  (forall k, p = RSleep k -> slots s (k mod c_threads c) <> None) -> (p = REnd -> next s = c_files c) ->
  Inv c taken (set_r s i p).
Proof.
  intros I INV HH HS HE. destruct INV. split; proj; try assumption; auto.
  - rewrite (gather_ext hold (upd (rds s) i p) (rds s)); [assumption|].
    intros k K. destruct (Nat.eq_dec k i) as [->|N]; [rewrite upd_same; exact HH|now rewrite upd_other].
  - intros i' k I' R. destruct (Nat.eq_dec i' i) as [->|N]; [rewrite upd_same in R; auto|rewrite upd_other in R by exact N; eauto].
  - intros i' I' R. destruct (Nat.eq_dec i' i) as [->|N]; [rewrite upd_same in R; auto|rewrite upd_other in R by exact N; eauto].
  - intros S1. rewrite <- (i_single0 S1). do 2 f_equal. destruct (Nat.eq_dec 0 i) as [<-|N]; [rewrite upd_same; exact HH|now rewrite upd_other].
Qed.
(** a writer likewise *)
Lemma inv_writer taken s j p : Inv c taken s -> (mn s <> MDestroy /\ mn s <> MExit) ->
  writer_ok (set_w s j p) taken j -> sleepy c (set_w s j p) j -> Inv c taken (set_w s j p).
Proof.
  intros INV [MD ME] W SL. destruct INV. split; proj; try assumption; auto.
  - unfold main_ok in *. proj. destruct (mn s); try assumption; tauto.
  - intros j' J'. destruct (Nat.eq_dec j' j) as [->|N]; [exact W|].
    specialize (i_writer0 j' J'). unfold writer_ok in *. proj. rewrite !upd_other by exact N. exact i_writer0.
  - intros j' J'. destruct (Nat.eq_dec j' j) as [->|N]; [exact SL|].
    specialize (i_sleepy0 j' J'). unfold sleepy in *. proj. rewrite !upd_other by exact N. exact i_sleepy0.
Qed.

(** waking main keeps the invariant *)
Lemma main_wake s m : main_ok c s m -> main_ok c (set_m s (wake_m (mn s))) m.
Proof. unfold main_ok. proj. destruct (mn s); cbn [wake_m]; tauto. Qed.

Lemma dead_main taken s : Inv c taken s -> dead s = true -> mn s = MExit.
Proof. intros INV D. pose proof (i_main _ _ _ INV) as M. unfold main_ok in M. rewrite D in M. destruct (mn s); try reflexivity; decompose [and] M; discriminate. Qed.
(** when everything is taken no reader holds a file *)
Lemma all_taken taken s : Inv c taken s -> length taken = c_files c -> gather opt (slots s) (c_threads c) = [] /\ gather hold (rds s) (c_threads c) = [].
Proof.
  intros INV L. pose proof (Permutation_length (i_part _ _ _ INV)) as P. rewrite !app_length, seq_length in P.
  pose proof (i_next _ _ _ INV). split; apply length_zero_iff_nil; lia.
Qed.
Lemma exit_taken taken s : Inv c taken s -> mn s = MExit -> length taken = c_files c.
Proof. intros INV M. pose proof (i_main _ _ _ INV) as MO. unfold main_ok in MO. rewrite M in MO. tauto. Qed.

Lemma r_step_inv taken s i r : Inv c taken s -> i < c_threads c -> r_step c i s = Some r ->
  match r with Ok s' => Inv c taken s' | UB _ => rds s i = RClaim /\ mn s = MExit | Throw _ => False end.
Proof.
  intros INV I. unfold r_step. pose proof T1 as T1.
  destruct (rds s i) as [|k|k|k|] eqn:R; try discriminate.
  - (* claim *)
    destruct (dead s) eqn:D. { intros E. injection E as <-. split; [reflexivity|]. eapply dead_main; eassumption. }
    destruct (Nat.ltb_spec (next s) (c_files c)) as [LT|GE].
    2:{ intros E. injection E as <-. apply inv_reader; auto. { now rewrite R. } { discriminate. } pose proof (i_next _ _ _ INV). lia. }
    destruct (c_opens c (next s)). 2:{ intros E. injection E as <-. now apply inv_quit. }
    intros E. injection E as <-. rewrite <- D.
    destruct INV. split; proj; try assumption; auto.
    + rewrite seq_S. cbn [Nat.add]. rewrite <- i_part0.
      pose proof (gather_upd hold (rds s) i (RRead (next s)) (c_threads c) I) as G. rewrite R in G. cbn [hold app] in G.
      rewrite G. rewrite <- !app_assoc. apply Permutation_app_head. apply Permutation_app_head.
      apply (Permutation_app_comm [next s]).
    + intros i' k' I' R'. destruct (Nat.eq_dec i' i) as [->|N]; [rewrite upd_same in R'; discriminate|rewrite upd_other in R' by exact N; eauto].
    + intros i' I' R'. destruct (Nat.eq_dec i' i) as [->|N]; [rewrite upd_same in R'; discriminate|rewrite upd_other in R' by exact N].
      specialize (i_rend0 i' I' R'). lia.
    + intros S1. rewrite seq_S. rewrite <- (i_single0 S1). assert (i = 0) by lia. subst i. rewrite upd_same, R. cbn [hold Nat.add]. now rewrite !app_nil_r, app_assoc.
  - (* read *)
    destruct (c_passes c k); intros E; injection E as <-; [|now apply inv_quit].
    apply inv_reader; auto. { now rewrite R. } { discriminate. } { discriminate. }
  - (* put *)
    destruct (dead s) eqn:D.
    { exfalso. pose proof (dead_main _ _ INV D) as M. destruct (all_taken _ _ INV (exit_taken _ _ INV M)) as [_ H].
      assert (X : In k (gather hold (rds s) (c_threads c))) by (apply gather_In; exists i; rewrite R; cbn; auto).
      rewrite H in X. destruct X. }
    destruct (slots s (k mod c_threads c)) as [q|] eqn:SL.
    { intros E. injection E as <-. apply inv_reader; auto. { now rewrite R. } { intros k' E. injection E as <-. now rewrite SL. } { discriminate. } }
    intros E. injection E as <-. rewrite <- D.
    assert (MW := main_wake s (length taken) (i_main _ _ _ INV)).
    destruct INV. split; proj; try assumption; auto.
    + pose proof (gather_upd hold (rds s) i RClaim (c_threads c) I) as G. rewrite R in G. cbn [hold app] in G.
      assert (KT : k mod c_threads c < c_threads c) by (apply Nat.mod_upper_bound; lia).
      pose proof (gather_upd opt (slots s) (k mod c_threads c) (Some k) (c_threads c) KT) as G'. rewrite SL in G'. cbn [opt app] in G'.
      rewrite <- i_part0. apply Permutation_app_head. rewrite G'. rewrite <- G. cbn [app]. 
      apply (Permutation_middle (gather opt (slots s) (c_threads c)) (gather hold (upd (rds s) i RClaim) (c_threads c)) k).
    + intros i' k' S'. destruct (Nat.eq_dec i' (k mod c_threads c)) as [->|N]; [rewrite upd_same in S'; injection S' as <-; reflexivity|rewrite upd_other in S' by exact N; eauto].
    + unfold main_ok in *. proj. destruct (mn s); cbn [wake_m] in *; try exact MW.
    + intros i' k' I' R'. destruct (Nat.eq_dec i' i) as [->|N]; [rewrite upd_same in R'; discriminate|rewrite upd_other in R' by exact N].
      destruct (Nat.eq_dec (k' mod c_threads c) (k mod c_threads c)) as [->|N']; [rewrite upd_same; discriminate|rewrite upd_other by exact N'; eauto].
    + intros i' I' R'. destruct (Nat.eq_dec i' i) as [->|N]; [rewrite upd_same in R'; discriminate|rewrite upd_other in R' by exact N; eauto].
    + intros S1. rewrite <- (i_single0 S1). assert (i = 0) by lia. subst i. rewrite upd_same, R. cbn [hold].
      assert (K0 : k mod c_threads c = 0) by (rewrite S1; apply Nat.mod_1_r). rewrite K0 in *. rewrite upd_same, SL. reflexivity.
Qed.

Lemma running taken s j : Inv c taken s -> j < c_entries c -> wrs s j <> WEnd -> mn s <> MDestroy /\ mn s <> MExit.
Proof.
  intros INV J W. pose proof (i_main _ _ _ INV) as M. unfold main_ok in M.
  split; intros E; rewrite E in M; apply W; apply M; exact J.
Qed.
Lemma not_dead taken s j : Inv c taken s -> j < c_entries c -> wrs s j <> WEnd -> dead s = false.
Proof.
  intros INV J W. destruct (dead s) eqn:D; [|reflexivity]. exfalso. apply (proj2 (running _ _ _ INV J W)). eapply dead_main; eassumption.
Qed.
Lemma cur_running taken s : Inv c taken s -> cur s <> None -> stopped s = false /\ dead s = false /\ (mn s = MLock \/ mn s = MWait \/ mn s = MCheck).
Proof. intros INV C. pose proof (i_main _ _ _ INV) as M. unfold main_ok in M. destruct (mn s); tauto. Qed.

Lemma w_step_inv taken s j r : Inv c taken s -> j < c_entries c -> w_step j s = Some r ->
  match r with Ok s' => Inv c taken s' | _ => False end.
Proof.
  intros INV J. unfold w_step.
  pose proof (i_writer _ _ _ INV j J) as WO. pose proof (i_sleepy _ _ _ INV j J) as SY.
  destruct (wrs s j) eqn:W; try discriminate;
    assert (NE : wrs s j <> WEnd) by (rewrite W; discriminate);
    pose proof (running _ _ _ INV J NE) as RU; pose proof (not_dead _ _ _ INV J NE) as ND.
  - (* top *)
    intros E. injection E as <-. apply inv_writer; auto.
    + unfold writer_ok in *. proj. rewrite upd_same. destruct (cur s) as [[k vals]|] eqn:C.
      * assert (CN : cur s <> None) by (rewrite C; discriminate). destruct (cur_running _ _ INV CN) as (ST & _). rewrite ST. rewrite W in WO. exact WO.
      * rewrite W in WO. destruct (stopped s); tauto.
    + unfold sleepy. proj. rewrite upd_same. destruct (stopped s); auto.
  - (* check *)
    rewrite ND. cbv zeta. intros E. injection E as <-. apply inv_writer; auto.
    + unfold writer_ok in *. proj. rewrite upd_same. rewrite W in WO. destruct (cur s) as [[k vals]|] eqn:C.
      * assert (CN : cur s <> None) by (rewrite C; discriminate). destruct (cur_running _ _ INV CN) as (ST & _). rewrite ST. cbn [negb andb].
        destruct (vals j); cbn [negb]; tauto.
      * destruct (stopped s); cbn [negb andb]; tauto.
    + unfold sleepy. proj. rewrite upd_same. destruct (stopped s); cbn [negb andb]; auto. destruct (match cur s with None => true | _ => _ end); auto.
  - (* go *)
    intros E. injection E as <-. apply inv_writer; auto.
    + unfold writer_ok in *. proj. rewrite upd_same. rewrite W in WO. destruct (cur s) as [[k vals]|] eqn:C.
      * assert (CN : cur s <> None) by (rewrite C; discriminate). destruct (cur_running _ _ INV CN) as (ST & _). rewrite ST.
        destruct (vals j); tauto.
      * destruct WO as [WO ->]. tauto.
    + unfold sleepy. proj. rewrite upd_same. destruct (stopped s); auto.
  - (* fwrite *)
    unfold writer_ok in WO. rewrite W in WO. destruct (cur s) as [[k vals]|] eqn:C; [|destruct WO as [_ []]].
    destruct (vals j) eqn:V; [|destruct WO as [_ []]]. intros E. injection E as <-.
    destruct INV. split; proj; try assumption; auto.
    + unfold main_ok in *. proj. rewrite C in *. destruct (mn s); try assumption; tauto.
    + rewrite C in i_cur0. exact i_cur0.
    + intros j' J'. destruct (Nat.eq_dec j' j) as [->|N].
      * unfold writer_ok. proj. rewrite !upd_same, V. exact WO.
      * specialize (i_writer0 j' J'). unfold writer_ok in *. proj. rewrite C in i_writer0. rewrite !upd_other by exact N. exact i_writer0.
    + intros j' J'. destruct (Nat.eq_dec j' j) as [->|N].
      * unfold sleepy. proj. now rewrite upd_same.
      * specialize (i_sleepy0 j' J'). unfold sleepy in *. proj. rewrite !upd_other by exact N. exact i_sleepy0.
  - (* clear *)
    rewrite ND. unfold writer_ok in WO. rewrite W in WO. destruct (cur s) as [[k vals]|] eqn:C; [|destruct WO as [_ []]].
    destruct (vals j) eqn:V; [|destruct WO as [_ []]]. intros E. injection E as <-.
    destruct INV. split; proj; try assumption; auto.
    + unfold main_ok in *. proj. rewrite C in *. destruct (mn s); try tauto; try (split; [discriminate|tauto]); destruct i_main0; discriminate.
    + intros k' vals' E. injection E as <- <-. apply (i_cur0 k vals). exact C.
    + intros j' J'. destruct (Nat.eq_dec j' j) as [->|N].
      * unfold writer_ok. proj. rewrite !upd_same. auto.
      * specialize (i_writer0 j' J'). unfold writer_ok in *. proj. rewrite C in i_writer0. rewrite !upd_other by exact N. exact i_writer0.
    + intros j' J'. destruct (Nat.eq_dec j' j) as [->|N].
      * unfold sleepy. proj. now rewrite upd_same.
      * specialize (i_sleepy0 j' J'). unfold sleepy in *. proj. rewrite !upd_other by exact N. exact i_sleepy0.
  - (* flush *)
    intros E. injection E as <-. assert (MW := main_wake s (length taken) (i_main _ _ _ INV)).
    destruct INV. split; proj; try assumption; auto.
    + unfold main_ok in *. proj. destruct (mn s); cbn [wake_m] in *; try exact MW; tauto.
    + intros j' J'. destruct (Nat.eq_dec j' j) as [->|N].
      * unfold writer_ok in *. proj. rewrite upd_same. rewrite W in WO. destruct (cur s) as [[k vals]|]; auto.
      * specialize (i_writer0 j' J'). unfold writer_ok in *. proj. rewrite !upd_other by exact N. exact i_writer0.
    + intros j' J'. destruct (Nat.eq_dec j' j) as [->|N].
      * unfold sleepy. proj. now rewrite upd_same.
      * specialize (i_sleepy0 j' J'). unfold sleepy in *. proj. rewrite !upd_other by exact N. exact i_sleepy0.
Qed.

Lemma m_step_inv taken s r : Inv c taken s -> m_step c s = Some r ->
  match r with Ok s' => exists taken', Inv c taken' s' | _ => False end.
Proof.
  intros INV. pose proof T1 as T1. unfold m_step. destruct (mn s) eqn:M; try discriminate; pose proof (i_main _ _ _ INV) as MO; unfold main_ok in MO; rewrite M in MO.
  - (* take *)
    destruct MO as (C & ST & D & LM & L1).
    destruct (slots s (wi s)) as [k|] eqn:SL; intros E; injection E as <-.
    + assert (WT : wi s < c_threads c) by (rewrite (i_wi _ _ _ INV); apply Nat.mod_upper_bound; lia).
      exists (taken ++ [k]). destruct INV. split; proj; try assumption; auto.
      * pose proof (gather_upd opt (slots s) (wi s) None (c_threads c) WT) as G. rewrite SL in G. cbn [opt app] in G.
        rewrite (gather_ext hold (fun i => wake_r (rds s i)) (rds s)) by (intros i _; destruct (rds s i); reflexivity).
        rewrite <- i_part0. rewrite <- app_assoc. apply Permutation_app_head. cbn [app].
        rewrite app_comm_cons. apply Permutation_app_tail. exact G.
      * intros i k' S'. destruct (Nat.eq_dec i (wi s)) as [->|N]; [rewrite upd_same in S'; discriminate|rewrite upd_other in S' by exact N; eauto].
      * intros i I. rewrite app_length in I. cbn in I. destruct (Nat.eq_dec i (length taken)) as [->|N].
        { rewrite app_nth2, Nat.sub_diag by lia. cbn [nth]. rewrite (i_slot0 _ _ SL). exact i_wi0. }
        { rewrite app_nth1 by lia. apply i_order0. lia. }
      * rewrite app_length. cbn [length]. rewrite i_wi0. rewrite Nat.add_1_r.
        rewrite <- (Nat.add_1_l (length taken mod c_threads c)). rewrite Nat.add_mod_idemp_r by lia. reflexivity.
      * unfold main_ok. proj. rewrite app_length. cbn [length]. repeat split; try assumption; try lia. discriminate.
      * intros k' vals' E. injection E as <- <-. eauto.
      * intros j J. specialize (i_writer0 j J). specialize (i_sleepy0 j J). unfold writer_ok, sleepy in *. proj. rewrite C in i_writer0.
        destruct i_writer0 as [O W]. destruct (wrs s j); cbn [wake_w]; try (now rewrite O); try tauto; congruence.
      * intros j J. specialize (i_sleepy0 j J). unfold sleepy in *. proj. destruct (wrs s j); cbn [wake_w]; auto.
      * intros i k' I R. exfalso. destruct (rds s i); discriminate R.
      * intros i I R. apply (i_rend0 i I). destruct (rds s i); try discriminate R; reflexivity.
      * intros S1. rewrite <- (i_single0 S1). assert (W0 : wi s = 0) by (rewrite i_wi0, S1; apply Nat.mod_1_r). rewrite W0 in *. rewrite upd_same, SL.
        cbn [opt]. rewrite <- app_assoc. cbn [app]. do 2 f_equal. destruct (rds s 0); reflexivity.
    + exists taken. destruct INV. split; proj; try assumption; auto.
      * unfold main_ok. proj. auto 10.
      * discriminate.
      * intros j J. specialize (i_writer0 j J). unfold writer_ok in *. proj. rewrite C in i_writer0. exact i_writer0.
  - (* lock *)
    intros E. injection E as <-. exists taken. destruct INV. split; proj; try assumption; auto.
  - (* check *)
    destruct (cur s) as [[k vals]|] eqn:C; [|destruct MO as [[] _]; reflexivity].
    destruct MO as (_ & ST & D & LM & L1).
    destruct (no_values c vals) eqn:NV; intros E; injection E as <-; exists taken.
    + assert (NV' : forall j, j < c_entries c -> vals j = false).
      { intros j J. unfold no_values in NV. rewrite forallb_forall in NV. specialize (NV j). rewrite in_seq in NV. specialize (NV ltac:(lia)). now destruct (vals j). }
      destruct INV. split; proj; try assumption; auto.
      * unfold main_ok. proj. destruct (left s) as [|[|l]]; [lia| |]; repeat split; auto; try lia.
      * discriminate.
      * intros j J. specialize (i_writer0 j J). unfold writer_ok in *. proj. rewrite C in i_writer0. rewrite (NV' j J) in i_writer0.
        destruct (wrs s j); tauto.
    + destruct INV. split; proj; try assumption; auto. unfold main_ok. proj. rewrite C. repeat split; auto. discriminate.
  - (* stop *)
    intros E. injection E as <-. exists taken. destruct MO as (C & ST & D & LM). destruct INV. split; proj; try assumption; auto.
    + unfold main_ok. proj. auto.
    + intros j J. specialize (i_writer0 j J). unfold writer_ok in *. proj. rewrite C in *. destruct (wrs s j); cbn [wake_w]; tauto.
    + intros j J. specialize (i_sleepy0 j J). unfold sleepy in *. proj. destruct (wrs s j); cbn [wake_w]; auto.
  - (* join *)
    destruct (forallb _ _) eqn:F; [|discriminate]. intros E. injection E as <-. exists taken.
    destruct INV. split; proj; try assumption; auto. unfold main_ok. proj. destruct MO as (C & ST & D & LM). repeat split; auto.
    intros j J. rewrite forallb_forall in F. specialize (F j). rewrite in_seq in F. specialize (F ltac:(lia)). now destruct (wrs s j).
  - (* destroy *)
    intros E. injection E as <-. exists taken. destruct INV. split; proj; try assumption; auto. unfold main_ok. proj. tauto.
  - (* exit *)
    intros E. injection E as <-. exists taken. now apply inv_quit.
Qed.

Lemma step_inv taken s ch r : Inv c taken s -> step c ch s = Some r ->
  match r with Ok s' => exists taken', Inv c taken' s' | UB _ => mn s = MExit /\ exists i, ch = Reader i /\ rds s i = RClaim | Throw _ => False end.
Proof.
  intros INV. unfold step. destruct (quit s); [discriminate|]. destruct ch as [i|j| |i|j|].
  - destruct (Nat.ltb_spec i (c_threads c)) as [I|]; [|discriminate]. intros E. pose proof (r_step_inv _ _ _ _ INV I E) as H.
    destruct r; [eauto|exact H|]. destruct H. eauto.
  - destruct (Nat.ltb_spec j (c_entries c)) as [J|]; [|discriminate]. intros E. pose proof (w_step_inv _ _ _ _ INV J E) as H.
    destruct r; [eauto|exact H|destruct H].
  - intros E. pose proof (m_step_inv _ _ _ INV E) as H. destruct r; [exact H|exact H|destruct H].
  - destruct (Nat.ltb_spec i (c_threads c)) as [I|]; [|discriminate]. destruct (rds s i) as [| | |k|] eqn:R; try discriminate.
    intros E. injection E as <-. exists taken. apply inv_reader; auto. { now rewrite R. } { discriminate. } { discriminate. }
  - destruct (Nat.ltb_spec j (c_entries c)) as [J|]; [|discriminate]. destruct (wrs s j) eqn:W; try discriminate.
    intros E. injection E as <-. exists taken. assert (NE : wrs s j <> WEnd) by (rewrite W; discriminate).
    pose proof (i_writer _ _ _ INV j J) as WO. apply inv_writer; auto.
    + exact (running _ _ _ INV J NE).
    + unfold writer_ok in *. proj. rewrite upd_same. rewrite W in WO. destruct (cur s) as [[k vals]|]; auto. destruct (vals j); tauto.
    + unfold sleepy. proj. now rewrite upd_same.
  - assert (MW := main_wake s (length taken) (i_main _ _ _ INV)).
    destruct (mn s) eqn:M; try discriminate; intros E; injection E as <-; exists taken; destruct INV; split; proj; try assumption; auto; rewrite ?M in *; exact MW.
Qed.

Lemma run_inv : forall l taken s s', Inv c taken s -> run c l s = Some (Ok s') -> exists taken', Inv c taken' s'.
Proof.
  induction l as [|ch l IH]; intros taken s s' INV; cbn [run].
  - intros E. injection E as <-. eauto.
  - destruct (step c ch s) as [r|] eqn:S; [|destruct l; discriminate].
    pose proof (step_inv _ _ _ _ INV S) as H. destruct r as [s1| |].
    + destruct H as [t' INV']. intros E. eauto.
    + destruct H.
    + destruct l; discriminate.
Qed.
Lemma reach_inv s : reachable c s -> exists taken, Inv c taken s.
Proof. intros [l R]. eapply run_inv; [|exact R]. now apply inv_start. Qed.
End Steps.

(** C39, C40: the records of the index cells and the temporary file. *)
From Coq Require Import ZArith List Bool Lia Sorting.Sorted.
Import ListNotations.
From Verif Require Import Outcome Bytes Float64 Header_Model Stream_Model Cached_Model Cached_Proofs
  Chipper_Spec Chipper_Lists Index_Cell Index_Temp Index_Scan Index_Image Index_Float Index_Spec Index_ScanProofs.
Local Open Scope Z_scope.
Local Notation length := List.length (only parsing).

Definition cell_at (s : scan) (k : Z) : cell := nth (Z.to_nat k) (s_cells s) cell0.

(** C39: after any sequence of points (fewer than 2^32, in any order of cells),
    the records of every cell stand for exactly the positions of the points that
    lie in it, in order and each once, and the count of the cell is their number;
    no record counts more than 255.  Without [~ rejoins] this is false
    ([C39_rejoin_refuted]). *)
Theorem C39_records_partial n maxmem ps : 0 < n < 2 ^ 32 -> Z.of_nat (length ps) < 2 ^ 32 -> placed_in n ps -> ~ rejoins ps ->
  exists s, scan_all n false maxmem ps = Ok s /\
    forall k, 0 <= k < n ->
      expand (k_pts (cell_at s k)) = ids_of k ps /\ k_num (cell_at s k) = Z.of_nat (length (ids_of k ps)) /\
      Forall (fun r => 1 <= snd r <= 255) (k_pts (cell_at s k)) /\ NoDup (map fst (k_pts (cell_at s k))).
Proof.
  intros Hn HL HP HR. destruct (scan_points_inv n false maxmem ps [] (scan0 n) [] Hn HL HP HR (scan0_inv n Hn)) as (s & G & E & I & T).
  specialize (T eq_refl eq_refl). unfold scan_all. rewrite E. cbn [obind]. exists s. split; [reflexivity|]. intros k Hk.
  destruct I as [A B (_ & C) D _ _ _ _]. destruct C as [(-> & _)|(f & X & _)]; [|congruence]. destruct (D k Hk) as (C1 & C2 & C3 & C4 & C5 & _). cbn [of_cell flat_map app] in *.
  unfold cell_at. split; [exact C1|]. split; [exact C5|]. split.
  - eapply Forall_impl; [|exact C2]. intros r Hr. cbv beta in *. lia.
  - clear -C3. unfold ascending in C3. induction C3 as [|x l S IH F]; constructor; [|assumption]. intros H. rewrite Forall_forall in F. specialize (F x H). lia.
Qed.

(** The hypotheses are met by 300 points of one cell around a visit to another:
    the count overflows a byte. *)
Definition walk : list placed :=
  Some (1, f64_zero) :: Some (0, f64_zero) :: None :: repeat (Some (1, f64_zero)) 300 ++ [None; Some (0, f64_zero)].
Fixpoint rejoinsb (last : option Z) (gap : bool) (ps : list placed) : bool :=
  match ps with
  | [] => false
  | None :: ps => rejoinsb last true ps
  | Some (k, _) :: ps => (gap && match last with Some j => j =? k | None => false end) || rejoinsb (Some k) false ps
  end.
Lemma rejoins_b ps : rejoins ps -> rejoinsb None false ps = true.
Proof.
  intros (a & k & z & m & z' & b & ->). generalize (@None Z), false. induction a as [|[[j w]|] a IH]; intros l g; cbn [app rejoinsb].
  - assert (X : forall m, rejoinsb (Some k) true (repeat None m ++ Some (k, z') :: b) = true).
    { induction m0 as [|m0 IH]; cbn [repeat app rejoinsb]; [now rewrite Z.eqb_refl|exact IH]. }
    cbn [repeat app rejoinsb]. rewrite X. apply orb_true_r.
  - rewrite IH. apply orb_true_r.
  - apply IH.
Qed.
Lemma walk_no_rejoin : ~ rejoins walk.
Proof. intros H. apply rejoins_b in H. revert H. vm_compute. discriminate. Qed.
Example C39_hypotheses : 0 < 4 < 2 ^ 32 /\ Z.of_nat (length walk) < 2 ^ 32 /\ placed_in 4 walk /\ ~ rejoins walk /\ length (ids_of 1 walk) = 301%nat.
Proof.
  split; [lia|]. split; [reflexivity|]. split; [|split; [apply walk_no_rejoin|reflexivity]].
  apply Forall_forall. intros p H. unfold walk in H. cbn [In] in H. rewrite in_app_iff in H.
  destruct H as [<-|[<-|[<-|[H|[<-|[<-|[]]]]]]]; try lia; try exact Logic.I. apply repeat_spec in H. subst p. lia.
Qed.
(** and the model does split the run at 255 *)
Example C39_walk_runs : exists s, scan_all 4 false 0 walk = Ok s /\ k_pts (cell_at s 1) = [(0, 1); (3, 255); (258, 45)] /\ k_pts (cell_at s 0) = [(1, 1); (304, 1)].
Proof. vm_compute. eexists. split; [reflexivity|]. split; reflexivity. Qed.

(** A point outside the bounds between two points of one cell: the records then
    name the rejected point and not the second one. *)
Theorem C39_rejoin_refuted : exists n ps s, placed_in n ps /\ scan_all n false 0 ps = Ok s /\
  ids_of 0 ps = [0; 2] /\ expand (k_pts (cell_at s 0)) = [0; 1].
Proof.
  exists 1, [Some (0, f64_zero); None; Some (0, f64_zero)]. vm_compute. eexists. split; [repeat constructor; discriminate|]. repeat split.
Qed.
(** At the interface of the cell: adding an id that starts an existing record
    forgets the other ids of that record, while the count grows. *)
Theorem C39_add_again_refuted : exists c1 c2, increment_point_record (add_point_record cell0 5) 5 = Some c1 /\
  add_point_record c1 5 = c2 /\ expand (k_pts c1) = [5; 6] /\ expand (k_pts c2) = [5] /\ k_num c2 = 3.
Proof. eexists _, _. repeat split. Qed.

(** C40: with a temporary file, however small the memory limit and so however
    often the cells are purged, every cell is loaded back with records that stand
    for exactly the positions of its points. *)
Theorem C40_temp_partial n maxmem ps : 0 < n < 2 ^ 32 -> Z.of_nat (length ps) < 2 ^ 32 -> placed_in n ps -> ~ rejoins ps ->
  exists s, scan_all n true maxmem ps = Ok s /\
    forall k, 0 <= k < n -> exists c, load_cell (s_temp s) k (cell_at s k) = Ok (Some c) /\
      expand (k_pts c) = ids_of k ps /\ k_num c = Z.of_nat (length (ids_of k ps)) /\
      k_minz c = k_minz (cell_at s k) /\ k_maxz c = k_maxz (cell_at s k).
Proof.
  intros Hn HL HP HR. destruct (scan_points_inv n true maxmem ps [] (scan0 n) [] Hn HL HP HR (scan0_inv n Hn)) as (s & G & E & I & _).
  unfold scan_all. rewrite E. cbn [obind]. apply inv_pinv in I. destruct (pinv_purge n _ _ _ G Hn HL I) as (cells & t & G' & E1 & E2 & E3 & E4). cbn [app] in *. rewrite E1.
  eexists. split; [reflexivity|]. intros k Hk. unfold cell_at. cbn [s_temp s_cells].
  pose proof (p_len _ _ _ _ _ E2). destruct (pinv_load n ps cells t G' k Hn HL E2 E3 Hk) as (c & L1 & L2 & L3 & L4 & L5 & L6 & L7 & L8 & _).
  - apply E4. lia.
  - exists c. auto.
Qed.

(** Any history of purges, whatever put the records into the cells: in each round
    every cell [k] is given the records [nth k round []] with
    AddPointRecord(id, count), and all cells are purged. *)
Definition fill (cells : list cell) (round : list runs) : list cell :=
  map (fun q => add_runs (fst q) (snd q)) (combine cells round).
Fixpoint purge_rounds (n : Z) (t : temp) (cells : list cell) (rounds : list (list runs)) : list cell * temp :=
  match rounds with
  | [] => (cells, t)
  | r :: rounds => let '(cells, t) := purge n t (fill cells r) in purge_rounds n t cells rounds
  end.
Definition held (rounds : list (list runs)) (k : Z) : runs := flat_map (fun r => nth (Z.to_nat k) r []) rounds.
(** ids ascend through the rounds; at most 2^32 - 1 points per cell and records in all *)
Definition rounds_ok (n : Z) (rounds : list (list runs)) : Prop :=
  Forall (fun r => Z.of_nat (length r) = n) rounds /\
  (forall k, 0 <= k < n -> ascending (held rounds k) /\ Forall run_ok (held rounds k) /\ Z.of_nat (length (expand (held rounds k))) < 2 ^ 32) /\
  Z.of_nat (length (concat (concat rounds))) < 2 ^ 32.

Record rinvh (n : Z) (done : list (list runs)) (cells : list cell) (t : temp) (G : blocks) : Prop := {
  h_len : Z.of_nat (length cells) = n;
  h_holds : holds n G t cells;
  h_of : forall k, 0 <= k < n -> of_cell k G = held done k;
  h_pts : forall k, 0 <= k < n -> k_pts (nth (Z.to_nat k) cells cell0) = [];
  h_num : forall k, 0 <= k < n -> k_num (nth (Z.to_nat k) cells cell0) = Z.of_nat (length (expand (held done k)));
  h_full : all_nonempty G;
  h_in : forall k b, In (k, b) G -> 0 <= k < n;
  h_cnt : nruns G = Z.of_nat (length (concat (concat done))) }.
Lemma held_app a b k : held (a ++ b) k = held a k ++ held b k. Proof. apply flat_map_app. Qed.
Lemma held_one r k : held [r] k = nth (Z.to_nat k) r []. Proof. unfold held. cbn [flat_map]. apply app_nil_r. Qed.
Lemma fill_length cells r : length r = length cells -> length (fill cells r) = length cells.
Proof. intros H. unfold fill. rewrite map_length, combine_length. lia. Qed.
Lemma fill_nth cells r i : length r = length cells -> (i < length cells)%nat -> nth i (fill cells r) cell0 = add_runs (nth i cells cell0) (nth i r []).
Proof.
  intros H Hi. unfold fill. revert r i H Hi. induction cells as [|c cells IH]; intros [|m r] i H Hi; try discriminate H; [cbn in Hi; lia|].
  destruct i as [|i]; cbn [combine map nth fst snd]; [reflexivity|]. apply IH; cbn [List.length] in *; lia.
Qed.
Lemma add_runs_off m : forall c, k_off (add_runs c m) = k_off c.
Proof. induction m as [|r m IH]; intros c; [reflexivity|]. unfold add_runs. cbn [fold_left]. fold (add_runs (add_point_run c (fst r) (snd r)) m). now rewrite IH. Qed.
Lemma mruns_eq cells : forall (r : list runs), length r = length cells -> (forall i, (i < length cells)%nat -> k_pts (nth i cells cell0) = nth i r []) -> mruns cells = Z.of_nat (length (concat r)).
Proof.
  unfold mruns. induction cells as [|c cells IH]; intros [|m r] HL H; try discriminate HL; [reflexivity|]. cbn [flat_map concat]. rewrite !app_length.
  assert (E : k_pts c = m) by (apply (H 0%nat); cbn; lia). rewrite E. specialize (IH r ltac:(cbn in HL; lia)).
  assert (IH' : Z.of_nat (length (flat_map k_pts cells)) = Z.of_nat (length (concat r))). { apply IH. intros i Hi. apply (H (S i)). cbn [List.length]. lia. }
  lia.
Qed.
Lemma purge_rounds_ok n rounds : 0 < n < 2 ^ 32 -> forall done cells t G, rounds_ok n (done ++ rounds) -> rinvh n done cells t G ->
  exists cells' t' G', purge_rounds n t cells rounds = (cells', t') /\ rinvh n (done ++ rounds) cells' t' G' /\ (rounds <> [] \/ t_file t <> None -> t_file t' <> None).
Proof.
  intros Hn. induction rounds as [|r rounds IH]; intros done cells t G HR I; cbn [purge_rounds].
  - rewrite app_nil_r. exists cells, t, G. split; [reflexivity|]. split; [exact I|]. intros [X|X]; [contradiction|exact X].
  - replace (done ++ r :: rounds) with ((done ++ [r]) ++ rounds) in * by now rewrite <- app_assoc. pose proof HR as (R1 & R2 & R3). destruct I as [A B C D E F N K].
    assert (RL : length r = length cells). { apply Forall_app in R1. destruct R1 as (R1 & _). apply Forall_app in R1. destruct R1 as (_ & R1). apply Forall_inv in R1. lia. }
    assert (FC : forall k, 0 <= k < n -> let c := nth (Z.to_nat k) (fill cells r) cell0 in
       k_pts c = nth (Z.to_nat k) r [] /\ k_num c = Z.of_nat (length (expand (held (done ++ [r]) k))) /\ k_off c = k_off (nth (Z.to_nat k) cells cell0)).
    { intros k Hk. cbv zeta. rewrite fill_nth by lia. specialize (R2 k Hk). rewrite !held_app, held_one in R2. rewrite held_app, held_one.
      destruct R2 as (S1 & S2 & S3). apply ascending_app in S1. destruct S1 as (S1 & _). apply ascending_app in S1. destruct S1 as (_ & S1). apply Forall_app in S2. destruct S2 as (S2 & _). apply Forall_app in S2.
      rewrite !expand_app, !app_length in S3. split; [|split; [|apply add_runs_off]].
      - rewrite add_runs_ok; [cbn [k_pts k_with_pts]; now rewrite (D k Hk)| | | |]; rewrite ?(D k Hk), ?(E k Hk); [exact S1|tauto|lia|lia].
      - rewrite add_runs_ok; [cbn [k_num k_with_pts]; rewrite (E k Hk), expand_app, app_length; lia| | | |]; rewrite ?(D k Hk), ?(E k Hk); [exact S1|tauto|lia|lia]. }
    assert (ML : mruns (fill cells r) = Z.of_nat (length (concat r))).
    { apply mruns_eq; [rewrite fill_length; lia|]. intros i Hi. rewrite fill_length in Hi by exact RL. destruct (FC (Z.of_nat i) ltac:(lia)) as (X & _). rewrite Nat2Z.id in X. exact X. }
    rewrite !concat_app, !app_length in R3. cbn [concat] in R3. rewrite app_nil_r in R3.
    assert (FULL : all_nonempty (G ++ purged_from 0 (fill cells r))) by (apply Forall_app; split; [exact F|apply purged_all]).
    assert (TB : nruns (G ++ purged_from 0 (fill cells r)) = Z.of_nat (length (concat (concat (done ++ [r]))))).
    { rewrite nruns_app, purged_nruns, ML, K, !concat_app, app_length. cbn [concat]. rewrite app_nil_r. lia. }
    pose proof (total_nruns _ FULL) as TN.
    destruct (purge_ok n G t (fill cells r) Hn) as (cells1 & t1 & E1 & E2 & E3 & E4).
    + rewrite fill_length; lia.
    + apply Forall_forall. intros c Hc. apply (In_nth _ _ cell0) in Hc. destruct Hc as (i & Hi & <-). pose proof (mruns_cell _ i Hi). unfold runs_small. lia.
    + rewrite TB, !concat_app, app_length in TN. cbn [concat] in TN. rewrite app_nil_r in TN. lia.
    + destruct B as (B1 & B2). split; [|exact B2]. intros i c Hc. assert (Hi : (i < length (fill cells r))%nat) by (apply nth_error_Some; congruence).
      apply (nth_error_nth _ _ cell0) in Hc. subst c. rewrite fill_length in Hi by exact RL. destruct (FC (Z.of_nat i) ltac:(lia)) as (_ & _ & X). rewrite Nat2Z.id in X. rewrite X. apply B1. now apply nth_error_nth'.
    + rewrite E1. destruct (Forall2_nth _ _ _ cell0 E4) as (L & NN). rewrite fill_length in L, NN by exact RL.
      destruct (IH (done ++ [r]) cells1 t1 (G ++ purged_from 0 (fill cells r)) HR) as (cells2 & t2 & G2 & F1 & F2 & F3).
      * constructor.
        -- lia.
        -- exact E2.
        -- intros k Hk. rewrite of_cell_app, of_cell_purged, held_app, held_one, (C k Hk), fill_length by exact RL.
           destruct (Z.leb_spec 0 k); [|lia]. destruct (Z.ltb_spec k (0 + Z.of_nat (length cells))); [|lia]. cbn [andb]. rewrite Z.sub_0_r. now rewrite (proj1 (FC k Hk)).
        -- intros k Hk. apply (NN (Z.to_nat k)). lia.
        -- intros k Hk. destruct (NN (Z.to_nat k)) as ((X1 & _) & _); [lia|]. rewrite X1. apply (FC k Hk).
        -- exact FULL.
        -- intros k b H. apply in_app_or in H. destruct H as [H|H]; [eauto|]. apply purged_in in H. rewrite fill_length in H by exact RL. lia.
        -- exact TB.
      * exists cells2, t2, G2. split; [exact F1|]. split; [exact F2|]. intros _. apply F3. right. exact E3.
Qed.
Theorem C40_history n rounds k : 0 < n < 2 ^ 32 -> 0 <= k < n -> rounds <> [] -> rounds_ok n rounds ->
  exists cells t c, purge_rounds n temp0 (repeat cell0 (Z.to_nat n)) rounds = (cells, t) /\
    load_cell t k (nth (Z.to_nat k) cells cell0) = Ok (Some c) /\
    k_pts c = held rounds k /\ k_num c = Z.of_nat (length (expand (held rounds k))).
Proof.
  intros Hn Hk HE HR. destruct (purge_rounds_ok n rounds Hn [] (repeat cell0 (Z.to_nat n)) temp0 [] HR) as (cells & t & G & E1 & E2 & E3).
  - destruct (scan0_inv n Hn) as [A B C D _ _ _ _]. constructor; auto; cbn [scan0 s_cells] in *.
    + intros j Hj. now rewrite nth_repeat.
    + intros j Hj. now rewrite nth_repeat.
    + constructor.
    + intros j b [].
  - cbn [app] in *. specialize (E3 (or_introl HE)). destruct E2 as [A B C D E F N K]. destruct HR as (R1 & R2 & R3). destruct (R2 k Hk) as (S1 & S2 & S3).
    pose proof (total_nruns _ F). exists cells, t.
    assert (BO : blocks_ok G).
    { apply Forall_forall. intros [j b] H1. cbn [snd]. split.
      - apply Forall_forall. intros r Hr. pose proof (in_of_cell _ _ _ _ H1 Hr) as Y. rewrite (C j (N j b H1)) in Y. destruct (R2 j (N j b H1)) as (_ & Z1 & _). rewrite Forall_forall in Z1. now apply Z1.
      - pose proof (block_le _ _ _ H1). lia. }
    rewrite (load_cell_ok n G t cells k _ Hn Hk B E3 ltac:(lia) BO), (C k Hk).
    rewrite add_runs_ok; cbn [k_num k_pts set_num_points k_with_pts]; rewrite ?(D k Hk), ?(E k Hk); [|exact S1|exact S2|lia|lia].
    rewrite Z.add_0_l, Z.eqb_refl. eexists. split; [exact E1|]. split; [reflexivity|]. split; reflexivity.
Qed.
Example C40_history_hypotheses : rounds_ok 2 [[[(0, 255)]; []]; [[(255, 3)]; [(258, 1); (300, 2)]]; [[]; [(700, 1)]]].
Proof.
  split; [repeat constructor|]. split; [|reflexivity]. intros k Hk. assert (C : k = 0 \/ k = 1) by lia.
  destruct C as [-> | ->]; (split; [repeat constructor|split; [repeat constructor; cbn; lia|reflexivity]]).
Qed.

(** Without a temporary file name the cells are still loaded from the temporary
    file, through a null FILE pointer: fseek(NULL, ...). *)
Theorem C40_unnamed_refuted maxmem : exists s, scan_all 1 false maxmem [Some (0, f64_zero)] = Ok s /\ load_cell (s_temp s) 0 (cell_at s 0) = UB UBNull.
Proof. eexists. split; [vm_compute; reflexivity|reflexivity]. Qed.

Print Assumptions C39_records_partial.
Print Assumptions C40_temp_partial.
Print Assumptions C40_history.

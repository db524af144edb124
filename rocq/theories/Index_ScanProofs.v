(** The records of the cells while the points are scanned. *)
From Coq Require Import ZArith List Bool Lia Sorting.Sorted.
Import ListNotations.
From Verif Require Import Outcome Bytes Float64 Header_Model Stream_Model Summary_Model Summary_Proofs Cached_Model Cached_Proofs
  Chipper_Spec Chipper_Lists Index_Cell Index_Temp Index_Scan Index_Image Index_Float Index_Spec.
Local Open Scope Z_scope.
Local Notation length := List.length (only parsing).

(** ** expand and ids_of *)
Lemma expand_app a b : expand (a ++ b) = expand a ++ expand b.
Proof. apply flat_map_app. Qed.
Lemma expand_one i n : expand [(i, n)] = zseq i (Z.to_nat n).
Proof. unfold expand. cbn [flat_map fst snd]. apply app_nil_r. Qed.
Lemma ids_snoc k d p : ids_of k (d ++ [p]) = ids_of k d ++ (if in_cell k p then [Z.of_nat (length d)] else []).
Proof.
  unfold ids_of. rewrite app_length. cbn [List.length]. rewrite zseq_app, filter_app. f_equal.
  - apply filter_ext_in. intros i Hi. apply zseq_In in Hi. rewrite app_nth1 by lia. reflexivity.
  - change 1%nat with (S 0). rewrite zseq_S. change (zseq (0 + Z.of_nat (length d) + 1) 0) with (@nil Z). cbn [filter].
    replace (Z.to_nat (0 + Z.of_nat (length d))) with (length d) by lia. rewrite nth_middle. destruct (in_cell k p); [f_equal; lia|reflexivity].
Qed.
Lemma ids_range k d i : In i (ids_of k d) -> 0 <= i < Z.of_nat (length d).
Proof. unfold ids_of. rewrite filter_In, zseq_In. lia. Qed.
Lemma filter_length_le' {A} (f : A -> bool) l : (length (filter f l) <= length l)%nat.
Proof. induction l as [|x l IH]; cbn [filter List.length]; [lia|]. destruct (f x); cbn [List.length]; lia. Qed.
Lemma ids_length k d : (length (ids_of k d) <= length d)%nat.
Proof. unfold ids_of. rewrite <- (zseq_length 0 (length d)) at 2. apply filter_length_le'. Qed.

(** ** the sorted map *)
Definition ascending (m : runs) : Prop := StronglySorted Z.lt (map fst m).
Definition below (b : Z) (m : runs) : Prop := Forall (fun r => fst r < b) m.
Lemma im_set_end {A} a (v : A) m : Forall (fun r => fst r < a) m -> im_set a v m = m ++ [(a, v)].
Proof.
  induction 1 as [|[k w] m H HF IH]; cbn [im_set app]; [reflexivity|]. cbn [fst] in H. destruct (Z.ltb_spec a k); [lia|]. destruct (Z.eqb_spec a k); [lia|]. now rewrite IH.
Qed.
Lemma im_find_end {A} a (v : A) m : Forall (fun r => fst r < a) m -> im_find a (m ++ [(a, v)]) = Some v.
Proof.
  induction 1 as [|[k w] m H HF IH]; cbn [im_find app]; [now rewrite Z.eqb_refl|]. cbn [fst] in H. destruct (Z.eqb_spec a k); [lia|exact IH].
Qed.
Lemma im_set_last {A} a (v w : A) m : Forall (fun r => fst r < a) m -> im_set a v (m ++ [(a, w)]) = m ++ [(a, v)].
Proof.
  induction 1 as [|[k u] m H HF IH]; cbn [im_set app].
  - rewrite Z.ltb_irrefl, Z.eqb_refl. reflexivity.
  - cbn [fst] in H. destruct (Z.ltb_spec a k); [lia|]. destruct (Z.eqb_spec a k); [lia|]. now rewrite IH.
Qed.
Lemma ascending_end m a v : ascending m -> below a m -> ascending (m ++ [(a, v)]).
Proof.
  unfold ascending, below. induction m as [|r m IH]; cbn [app map]; intros HS HB; [repeat constructor|].
  inversion HS as [|? ? S1 S2]; subst. inversion HB as [|? ? B1 B2]; subst. constructor; [now apply IH|].
  rewrite map_app. apply Forall_app. split; [exact S2|]. repeat constructor. exact B1.
Qed.
Lemma ascending_split m a v : ascending (m ++ [(a, v)]) -> ascending m /\ below a m.
Proof.
  unfold ascending, below. induction m as [|r m IH]; cbn [app map]; intros HS; [split; constructor|].
  inversion HS as [|? ? S1 S2]; subst. destruct (IH S1) as (A & B). rewrite map_app in S2. apply Forall_app in S2. destruct S2 as (S2 & S3). inversion S3; subst.
  split; constructor; auto.
Qed.
Lemma ascending_app m1 m2 : ascending (m1 ++ m2) -> ascending m1 /\ ascending m2.
Proof.
  unfold ascending. induction m1 as [|r m IH]; cbn [app map]; intros HS; [split; [constructor|exact HS]|].
  inversion HS as [|? ? S1 S2]; subst. destruct (IH S1) as (A & B). rewrite map_app in S2. apply Forall_app in S2. split; [constructor; tauto|exact B].
Qed.
Lemma add_runs_ok m : forall c, ascending (k_pts c ++ m) -> Forall run_ok m -> 0 <= k_num c ->
  k_num c + Z.of_nat (length (expand m)) < 2 ^ 32 ->
  add_runs c m = k_with_pts c (k_num c + Z.of_nat (length (expand m))) (k_pts c ++ m).
Proof.
  induction m as [|[i v] m IH]; intros c HA HR H0 HB.
  - cbn. rewrite app_nil_r, Z.add_0_r. now destruct c.
  - inversion HR as [|? ? [R1 R2] HR']; subst. cbn [fst snd] in R1, R2. unfold add_runs. cbn [fold_left fst snd]. fold (add_runs (add_point_run c i v) m).
    change ((i, v) :: m) with ([(i, v)] ++ m) in *. rewrite expand_app, expand_one, app_length, zseq_length in *.
    assert (BE : below i (k_pts c)). { rewrite app_assoc in HA. apply ascending_app in HA. destruct HA as (HA & _). apply ascending_split in HA. tauto. }
    assert (X : add_point_run c i v = k_with_pts c (k_num c + v) (k_pts c ++ [(i, v)])).
    { unfold add_point_run. rewrite im_set_end by exact BE. rewrite (Z.mod_small (k_num c + v)) by lia. reflexivity. }
    rewrite X, IH.
    + cbn [k_num k_pts k_with_pts]. unfold k_with_pts. cbn [k_off k_num k_minz k_maxz k_pts k_zsub k_xysub]. rewrite <- !app_assoc. f_equal. lia.
    + cbn [k_pts k_with_pts]. now rewrite <- app_assoc.
    + exact HR'.
    + cbn [k_num k_with_pts]. lia.
    + cbn [k_num k_with_pts]. lia.
Qed.

(** ** what a purge writes *)
Lemma of_cell_app k G H : of_cell k (G ++ H) = of_cell k G ++ of_cell k H.
Proof. apply flat_map_app. Qed.
Lemma of_cell_nonempty k j m : of_cell k (nonempty j m) = if j =? k then m else [].
Proof. destruct m; cbn [nonempty of_cell flat_map fst snd]; [now destruct (j =? k)|]. destruct (j =? k); [now rewrite app_nil_r|reflexivity]. Qed.
Lemma of_cell_purged k cells : forall j, of_cell k (purged_from j cells) =
  if (j <=? k) && (k <? j + Z.of_nat (length cells)) then k_pts (nth (Z.to_nat (k - j)) cells cell0) else [].
Proof.
  induction cells as [|c cells IH]; intros j; cbn [purged_from].
  - cbn [List.length nth of_cell flat_map]. destruct (_ && _); [destruct (Z.to_nat (k - j))|]; reflexivity.
  - rewrite of_cell_app, of_cell_nonempty, IH. cbn [List.length].
    destruct (Z.eqb_spec j k) as [->|N].
    + replace (k - k) with 0 by lia. cbn [Z.to_nat nth]. destruct (Z.leb_spec (k + 1) k); [lia|]. cbn [andb]. rewrite app_nil_r.
      destruct (Z.leb_spec k k); [|lia]. destruct (Z.ltb_spec k (k + Z.of_nat (S (length cells)))); [reflexivity|lia].
    + cbn [app]. destruct (Z.leb_spec (j + 1) k), (Z.leb_spec j k), (Z.ltb_spec k (j + 1 + Z.of_nat (length cells))), (Z.ltb_spec k (j + Z.of_nat (S (length cells)))); cbn [andb]; try reflexivity; try lia.
      replace (Z.to_nat (k - j)) with (S (Z.to_nat (k - (j + 1)))) by lia. reflexivity.
Qed.
Definition nruns (G : blocks) : Z := Z.of_nat (length (flat_map snd G)).
Definition mruns (cells : list cell) : Z := Z.of_nat (length (flat_map k_pts cells)).
Definition all_nonempty (G : blocks) : Prop := Forall (fun b => snd b <> []) G.
Lemma nruns_app G H : nruns (G ++ H) = nruns G + nruns H.
Proof. unfold nruns. rewrite flat_map_app, app_length, Nat2Z.inj_add. reflexivity. Qed.
Lemma total_nruns G : all_nonempty G -> total G <= 17 * nruns G.
Proof.
  induction 1 as [|[k m] G H HF IH]; [cbn; lia|]. cbn [total]. unfold nruns in *. cbn [flat_map snd] in *. rewrite app_length. unfold bsize.
  destruct m; [contradiction|]. cbn [List.length]. lia.
Qed.
Lemma nonempty_all k m : all_nonempty (nonempty k m).
Proof. destruct m; cbn [nonempty]; repeat constructor. discriminate. Qed.
Lemma purged_all cells : forall k, all_nonempty (purged_from k cells).
Proof. induction cells as [|c cells IH]; intros k; cbn [purged_from]; [constructor|]. apply Forall_app. split; [apply nonempty_all|apply IH]. Qed.
Lemma purged_nruns cells : forall k, nruns (purged_from k cells) = mruns cells.
Proof.
  induction cells as [|c cells IH]; intros k; cbn [purged_from]; [reflexivity|]. rewrite nruns_app, IH. unfold nruns, mruns. cbn [flat_map]. rewrite app_length.
  destruct (k_pts c); cbn [nonempty flat_map snd List.length]; [lia|]. rewrite app_nil_r. cbn [List.length]. lia.
Qed.
Lemma mruns_set cells : forall i c, (i < length cells)%nat ->
  mruns (list_set cells i c) = mruns cells - Z.of_nat (length (k_pts (nth i cells cell0))) + Z.of_nat (length (k_pts c)).
Proof.
  unfold mruns. induction cells as [|d cells IH]; intros i c H; [cbn in H; lia|]. cbn [List.length] in H. destruct i as [|i]; cbn [list_set flat_map nth]; rewrite !app_length; [lia|].
  specialize (IH i c ltac:(lia)). lia.
Qed.
Lemma mruns_cell cells i : (i < length cells)%nat -> Z.of_nat (length (k_pts (nth i cells cell0))) <= mruns cells.
Proof.
  unfold mruns. revert i. induction cells as [|d cells IH]; intros i H; [cbn in H; lia|]. cbn [List.length] in H. cbn [flat_map]. rewrite app_length. destruct i; cbn [nth]; [lia|].
  specialize (IH i ltac:(lia)). lia.
Qed.
Lemma Forall2_nth {A} (R : A -> A -> Prop) l l' d : Forall2 R l l' -> length l = length l' /\ forall i, (i < length l)%nat -> R (nth i l d) (nth i l' d).
Proof.
  induction 1 as [|x y l l' H HF IH]; [split; [reflexivity|cbn; lia]|]. destruct IH as (L & IH). split; [cbn [List.length]; lia|].
  intros [|i] Hi; cbn [nth List.length] in *; [exact H|apply IH; lia].
Qed.
Lemma mruns_empty cells : (forall i, (i < length cells)%nat -> k_pts (nth i cells cell0) = []) -> mruns cells = 0.
Proof.
  unfold mruns. induction cells as [|d cells IH]; intros H; [reflexivity|]. cbn [flat_map]. assert (E0 : k_pts d = []) by (apply (H 0%nat); cbn; lia); rewrite E0. cbn [app]. apply IH. intros i Hi. apply (H (S i)). cbn [List.length]. lia.
Qed.

(** ** the invariant *)
Definition cell_ok (d : list placed) (G : blocks) (k : Z) (c : cell) : Prop :=
  expand (of_cell k G ++ k_pts c) = ids_of k d /\
  Forall (fun r => 0 <= fst r < 2 ^ 32 /\ 1 <= snd r < 256) (of_cell k G ++ k_pts c) /\
  ascending (of_cell k G ++ k_pts c) /\ below (Z.of_nat (length d)) (of_cell k G ++ k_pts c) /\
  k_num c = Z.of_nat (length (ids_of k d)) /\
  -32768 <= k_minz c <= 32767 /\ -32768 <= k_maxz c <= 32767 /\ k_zsub c = [] /\ k_xysub c = [].
Definition last_ok (d : list placed) (s : scan) : Prop :=
  (s_last s = -1) \/
  (exists (d1 : list placed) z m front r, d = d1 ++ Some (s_last s, z) :: repeat None m /\
     k_pts (nth (Z.to_nat (s_last s)) (s_cells s) cell0) = front ++ [(s_lastid s, r)] /\ s_lastid s + r - 1 = Z.of_nat (length d1)).
Record inv (n : Z) (d : list placed) (s : scan) (G : blocks) : Prop := {
  i_len : Z.of_nat (length (s_cells s)) = n;
  i_id : s_id s = Z.of_nat (length d);
  i_holds : holds n G (s_temp s) (s_cells s);
  i_cells : forall k, 0 <= k < n -> cell_ok d G k (nth (Z.to_nat k) (s_cells s) cell0);
  i_none : forall k b, In (k, b) G -> 0 <= k < n;
  i_full : all_nonempty G;
  i_count : nruns G + mruns (s_cells s) <= Z.of_nat (length d);
  i_last : last_ok d s }.

Lemma cell_ok_more d G k c p : in_cell k p = false -> cell_ok d G k c -> cell_ok (d ++ [p]) G k c.
Proof.
  intros HP (A & B & C & D & E & F). unfold cell_ok. rewrite ids_snoc, HP, app_nil_r. repeat (split; [assumption|]). split; [|tauto].
  eapply Forall_impl; [|exact D]. intros r Hr. cbv beta in Hr |- *. rewrite app_length. lia.
Qed.
Lemma list_set_offs n G cells k c : offs_ok n 0 G cells -> k_off c = k_off (nth k cells cell0) -> (k < length cells)%nat -> offs_ok n 0 G (list_set cells k c).
Proof.
  intros HO HC HK i d Hd. assert (Hi : (i < length cells)%nat). { rewrite <- (length_list_set cells k c). apply nth_error_Some. congruence. }
  apply (nth_error_nth _ _ cell0) in Hd. rewrite nth_list_set in Hd by exact HK. destruct (Nat.eqb_spec i k) as [->|N].
  - subst d. rewrite HC. apply HO. now apply nth_error_nth'.
  - subst d. apply HO. now apply nth_error_nth'.
Qed.
Lemma repeat_snoc {A} (x : A) m : repeat x m ++ [x] = repeat x (S m).
Proof. induction m as [|m IH]; cbn [repeat app]; [reflexivity|]. now rewrite IH. Qed.

Lemma scan0_inv n : 0 < n < 2 ^ 32 -> inv n [] (scan0 n) [].
Proof.
  intros Hn. constructor; cbn [scan0 s_cells s_id s_temp s_last s_lastid].
  - rewrite repeat_length. lia.
  - reflexivity.
  - split; [|left; split; reflexivity]. intros i c Hc. apply nth_error_In, repeat_spec in Hc. now subst c.
  - intros k Hk. rewrite nth_repeat. unfold cell_ok. cbn [of_cell flat_map app cell0 k_pts k_num k_minz k_maxz k_zsub k_xysub]. repeat split; try constructor; lia.
  - intros k b [].
  - constructor.
  - unfold mruns, nruns. replace (flat_map k_pts (repeat cell0 (Z.to_nat n))) with (@nil (Z * Z)); [cbn; lia|].
    induction (Z.to_nat n) as [|m IH]; [reflexivity|]. cbn [repeat flat_map]. now rewrite <- IH.
  - left. reflexivity.
Qed.

(** a purge keeps everything but the claim about the last record *)
Record pinv (n : Z) (d : list placed) (cells : list cell) (t : temp) (G : blocks) : Prop := {
  p_len : Z.of_nat (length cells) = n;
  p_holds : holds n G t cells;
  p_cells : forall k, 0 <= k < n -> cell_ok d G k (nth (Z.to_nat k) cells cell0);
  p_none : forall k b, In (k, b) G -> 0 <= k < n;
  p_full : all_nonempty G;
  p_count : nruns G + mruns cells <= Z.of_nat (length d) }.
Lemma inv_pinv n d s G : inv n d s G -> pinv n d (s_cells s) (s_temp s) G.
Proof. intros [A B C D E F H I]. now constructor. Qed.
Lemma purged_in cells : forall j k b, In (k, b) (purged_from j cells) -> j <= k < j + Z.of_nat (length cells).
Proof.
  induction cells as [|c cells IH]; intros j k b H; cbn [purged_from List.length] in *; [destruct H|]. apply in_app_or in H. destruct H as [H|H].
  - destruct (k_pts c); cbn [nonempty] in H; [destruct H|]. destruct H as [H|[]]. apply (f_equal fst) in H. cbn [fst] in H. lia.
  - apply IH in H. lia.
Qed.
Lemma pinv_small n d cells t G : pinv n d cells t G -> Z.of_nat (length d) < 2 ^ 32 -> Forall runs_small cells.
Proof.
  intros [A B C D E F] HD. apply Forall_forall. intros c Hc. apply (In_nth _ _ cell0) in Hc. destruct Hc as (i & Hi & <-).
  pose proof (mruns_cell cells i Hi). unfold runs_small. assert (0 <= nruns G) by (unfold nruns; lia). lia.
Qed.
Lemma pinv_purge n d cells t G : 0 < n < 2 ^ 32 -> Z.of_nat (length d) < 2 ^ 32 -> pinv n d cells t G ->
  exists cells' t' G', purge n t cells = (cells', t') /\ pinv n d cells' t' G' /\ t_file t' <> None /\
    (forall i, (i < length cells')%nat -> k_pts (nth i cells' cell0) = [] /\ same_but_runs (nth i cells cell0) (nth i cells' cell0)).
Proof.
  intros Hn Hd P. pose proof (pinv_small _ _ _ _ _ P Hd) as RS. destruct P as [A B C D E F].
  assert (E' : all_nonempty (G ++ purged_from 0 cells)) by (apply Forall_app; split; [exact E|apply purged_all]).
  assert (TB : total (G ++ purged_from 0 cells) <= 17 * Z.of_nat (length d)).
  { pose proof (total_nruns _ E') as X. rewrite nruns_app, purged_nruns in X. lia. }
  destruct (purge_ok n G t cells Hn A RS ltac:(lia) B) as (cells' & t' & E1 & E2 & E3 & E4).
  destruct (Forall2_nth _ _ _ cell0 E4) as (L & N). exists cells', t', (G ++ purged_from 0 cells).
  assert (N0 : forall i, (i < length cells')%nat -> k_pts (nth i cells' cell0) = [] /\ same_but_runs (nth i cells cell0) (nth i cells' cell0)).
  { intros i Hi. destruct (N i) as (X & Y); [lia|]. split; assumption. }
  split; [exact E1|]. split; [|split; [exact E3|exact N0]].
  constructor.
  - lia.
  - exact E2.
  - intros k Hk. destruct (N (Z.to_nat k)) as ((X1 & X2 & X3 & X4 & X5) & X6); [lia|]. unfold cell_ok. rewrite of_cell_app, of_cell_purged, X6, app_nil_r.
    destruct (Z.leb_spec 0 k); [|lia]. destruct (Z.ltb_spec k (0 + Z.of_nat (length cells))); [|lia]. cbn [andb]. rewrite Z.sub_0_r.
    rewrite X1, X2, X3, X4, X5. apply C. exact Hk.
  - intros k b H. apply in_app_or in H. destruct H as [H|H]; [eauto|]. apply purged_in in H. lia.
  - exact E'.
  - rewrite nruns_app, purged_nruns. rewrite (mruns_empty cells'); [lia|]. intros i Hi. now apply N0.
Qed.

Lemma zseq_snoc s n : zseq s (S n) = zseq s n ++ [s + Z.of_nat n].
Proof. replace (S n) with (n + 1)%nat by lia. rewrite zseq_app. f_equal. rewrite (zseq_S (s + Z.of_nat n) 0). reflexivity. Qed.
Lemma pow32_big : 255 < 2 ^ 32. Proof. reflexivity. Qed.

(** A new record for cell [k]. *)
Lemma step_new n d cells t G k z mem : 0 < n < 2 ^ 32 -> Z.of_nat (length d) + 1 < 2 ^ 32 -> 0 <= k < n -> pinv n d cells t G ->
  exists c', (let! c := vget cells k in update_z_bounds (add_point_record c (Z.of_nat (length d))) z) = Ok c' /\
    inv n (d ++ [Some (k, z)]) (mkScan (list_set cells (Z.to_nat k) c') t k (Z.of_nat (length d)) (Z.of_nat (length d) + 1) mem) G.
Proof.
  intros Hn Hd Hk P. destruct P as [A B C D E F]. rewrite (vget_ok cells k cell0) by lia. cbn [obind]. set (c := nth (Z.to_nat k) cells cell0) in *.
  destruct (C k Hk) as (C1 & C2 & C3 & C4 & C5 & C6 & C7 & C8 & C9). fold c in C1, C2, C3, C4, C5, C6, C7, C8, C9.
  assert (BE : below (Z.of_nat (length d)) (k_pts c)). { unfold below in C4. apply Forall_app in C4. tauto. }
  pose proof (ids_length k d) as IL. assert (KN : (k_num c + 1) mod 2 ^ 32 = k_num c + 1) by (apply Z.mod_small; lia).
  destruct (update_z_ok (add_point_record c (Z.of_nat (length d))) z) as (lo & hi & U & U1 & U2); [assumption..|].
  rewrite U. eexists. split; [reflexivity|]. unfold add_point_record. cbn [k_off k_num k_minz k_maxz k_pts k_zsub k_xysub k_with_pts]. rewrite im_set_end by exact BE. rewrite KN.
  set (c' := mkCell _ _ _ _ _ _ _).
  constructor; cbn [s_cells s_temp s_id s_last s_lastid].
  - now rewrite length_list_set.
  - rewrite app_length. cbn [List.length]. lia.
  - destruct B as (B1 & B2). split; [|exact B2]. apply list_set_offs; [exact B1|reflexivity|lia].
  - intros j Hj. rewrite nth_list_set by lia. destruct (Nat.eqb_spec (Z.to_nat j) (Z.to_nat k)) as [N|N].
    + assert (j = k) by lia. subst j. unfold cell_ok, c'. cbn [k_num k_minz k_maxz k_pts k_zsub k_xysub]. rewrite ids_snoc. cbn [in_cell]. rewrite Z.eqb_refl. rewrite app_assoc.
      split; [rewrite expand_app, C1, expand_one; change (Z.to_nat 1) with 1%nat; rewrite (zseq_S _ 0); reflexivity|].
      split; [apply Forall_app; split; [exact C2|repeat constructor; cbn [fst snd]; lia]|].
      split; [apply ascending_end; assumption|].
      split; [apply Forall_app; split; [eapply Forall_impl; [|exact C4]; intros r Hr; cbv beta in *; rewrite app_length; lia|repeat constructor; cbn [fst]; rewrite app_length; cbn [List.length]; lia]|].
      split; [rewrite app_length; cbn [List.length]; lia|tauto].
    + apply cell_ok_more; [|apply C; exact Hj]. cbn [in_cell]. apply Z.eqb_neq. lia.
  - exact D.
  - exact E.
  - rewrite mruns_set by lia. fold c. unfold c'. cbn [k_pts]. rewrite !app_length. cbn [List.length]. lia.
  - right. exists d, z, 0%nat, (k_pts c), 1. cbn [repeat]. cbn [s_last s_lastid s_cells]. split; [reflexivity|]. split; [|lia].
    rewrite nth_list_set by lia. rewrite Nat.eqb_refl. reflexivity.
Qed.

Lemma scan_point_inv n named maxmem d s G p rest : 0 < n < 2 ^ 32 -> Z.of_nat (length d) + 1 < 2 ^ 32 ->
  placed_in n [p] -> ~ rejoins (d ++ p :: rest) -> inv n d s G ->
  exists s' G', scan_point n named maxmem s p = Ok s' /\ inv n (d ++ [p]) s' G' /\ (named = false -> t_file (s_temp s) = None -> t_file (s_temp s') = None).
Proof.
  intros Hn Hd HP HR I. pose proof (inv_pinv _ _ _ _ I) as PI. destruct I as [A B C D E F K L]. unfold scan_point. rewrite B, (Z.mod_small (Z.of_nat (length d) + 1)) by lia.
  destruct p as [[k z]|].
  - pose proof (Forall_inv HP) as Hk. cbv beta iota in Hk. rewrite (vget_ok (s_cells s) k cell0) by lia. cbn [obind]. set (c := nth (Z.to_nat k) (s_cells s) cell0) in *.
    assert (NEWCASE : exists s' G', (let '(cells, t, mem) :=
            if named && (maxmem <=? s_mem s)
            then let '(cells, t) := purge n (s_temp s) (s_cells s) in (cells, t, 0)
            else (s_cells s, s_temp s, s_mem s) in
          let! c := vget cells k in
          let! c := update_z_bounds (add_point_record c (Z.of_nat (length d))) z in
          let! cells := vset cells k c in
          Ok (mkScan cells t k (Z.of_nat (length d)) (Z.of_nat (length d) + 1) ((mem + 1) mod 2 ^ 32))) = Ok s' /\
       inv n (d ++ [Some (k, z)]) s' G' /\ (named = false -> t_file (s_temp s) = None -> t_file (s_temp s') = None)).
    { destruct (named && (maxmem <=? s_mem s)) eqn:NM.
      - destruct (pinv_purge n d _ _ G Hn ltac:(lia) PI) as (cells' & t' & G' & E1 & E2 & E3 & E4). rewrite E1.
        destruct (step_new n d cells' t' G' k z ((0 + 1) mod 2 ^ 32) Hn Hd Hk E2) as (c' & S1 & S2).
        eexists _, G'. split; [|split; [exact S2|intros ->; discriminate]]. apply obind_ok in S1. destruct S1 as (c1 & S1 & S3). rewrite S1. cbn [obind]. rewrite S3. cbn [obind].
        rewrite vset_ok by (rewrite (p_len _ _ _ _ _ E2); lia). reflexivity.
      - destruct (step_new n d (s_cells s) (s_temp s) G k z ((s_mem s + 1) mod 2 ^ 32) Hn Hd Hk PI) as (c' & S1 & S2).
        eexists _, G. split; [|split; [exact S2|intros _ X; exact X]]. apply obind_ok in S1. destruct S1 as (c1 & S1 & S3). rewrite S1. cbn [obind]. rewrite S3. cbn [obind].
        rewrite vset_ok by lia. reflexivity. }
    destruct (Z.eqb_spec k (s_last s)) as [EK|NK].
    + destruct L as [L|(d1 & z1 & m & front & r & L1 & L2 & L3)]; [lia|]. rewrite <- EK in L1, L2. fold c in L2.
      assert (M0 : m = 0%nat).
      { destruct m as [|m]; [reflexivity|]. exfalso. apply HR. exists d1, k, z1, m, z, rest. rewrite L1, <- app_assoc. reflexivity. }
      subst m. cbn [repeat] in L1. destruct (D k Hk) as (C1 & C2 & C3 & C4 & C5 & C6 & C7 & C8 & C9). fold c in C1, C2, C3, C4, C5, C6, C7, C8, C9. rewrite L2 in C1, C2, C3, C4. rewrite app_assoc in C1, C2, C3, C4.
      destruct (ascending_split _ _ _ C3) as (S1 & S2). assert (BE : below (s_lastid s) front) by (unfold below in S2; apply Forall_app in S2; tauto).
      unfold increment_point_record. rewrite L2, im_find_end by exact BE. destruct (Z.ltb_spec r 255) as [HR1|HR1]; [|exact NEWCASE].
      rewrite im_set_last by exact BE. apply Forall_app in C2. destruct C2 as (C2 & C2'). destruct (Forall_inv C2') as (Q1 & Q2). cbn [fst snd] in Q1, Q2. subst d.
      pose proof (ids_length k (d1 ++ [Some (s_last s, z1)])) as IL. subst k.
      set (d := d1 ++ [Some (s_last s, z1)]) in *.
      rewrite (Z.mod_small (k_num c + 1)) by lia.
      destruct (update_z_ok (k_with_pts c (k_num c + 1) (front ++ [(s_lastid s, r + 1)])) z) as (lo & hi & U & U1 & U2); [assumption..|].
      rewrite U. cbn [obind]. rewrite vset_ok by lia. cbn [obind]. cbn [k_off k_num k_minz k_maxz k_pts k_zsub k_xysub k_with_pts]. set (c' := mkCell _ _ _ _ _ _ _).
      assert (LD : Z.of_nat (length d) = s_lastid s + r) by (unfold d; rewrite app_length; cbn [List.length]; lia).
      eexists _, G. split; [reflexivity|]. split; [|intros _ X; exact X].
      constructor; cbn [s_cells s_temp s_id s_last s_lastid].
      * now rewrite length_list_set.
      * rewrite app_length. cbn [List.length]. lia.
      * destruct C as (CC1 & CC2). split; [|exact CC2]. apply list_set_offs; [exact CC1|reflexivity|lia].
      * intros j Hj. rewrite nth_list_set by lia. destruct (Nat.eqb_spec (Z.to_nat j) (Z.to_nat (s_last s))) as [N|N].
        -- assert (j = s_last s) by lia. subst j. unfold cell_ok, c'. cbn [k_num k_minz k_maxz k_pts k_zsub k_xysub]. rewrite ids_snoc. cbn [in_cell]. rewrite Z.eqb_refl.
           rewrite app_assoc. rewrite expand_app, expand_one in C1 |- *. replace (Z.to_nat (r + 1)) with (S (Z.to_nat r)) by lia. rewrite zseq_snoc, app_assoc, C1.
           split; [f_equal; f_equal; lia|]. split; [apply Forall_app; split; [exact C2|repeat constructor; cbn [fst snd]; lia]|].
           split; [apply ascending_end; assumption|].
           split; [apply Forall_app in C4; destruct C4 as (C4 & C4'); apply Forall_app; split; [eapply Forall_impl; [|exact C4]; intros q Hq; cbv beta in *; rewrite app_length; lia|repeat constructor; cbn [fst]; rewrite app_length; cbn [List.length]; lia]|].
           split; [rewrite app_length; cbn [List.length]; lia|tauto].
        -- apply cell_ok_more; [|apply D; exact Hj]. cbn [in_cell]. apply Z.eqb_neq. lia.
      * exact E.
      * exact F.
      * rewrite mruns_set by lia. fold c. rewrite L2. unfold c'. cbn [k_pts]. rewrite !app_length. cbn [List.length]. lia.
      * right. exists d, z, 0%nat, front, (r + 1). cbn [repeat]. cbn [s_last s_lastid s_cells]. split; [reflexivity|]. split; [|lia].
        rewrite nth_list_set by lia. rewrite Nat.eqb_refl. reflexivity.
    + exact NEWCASE.
  - eexists _, G. split; [reflexivity|]. split; [|intros _ X; exact X]. constructor; cbn [s_cells s_temp s_id s_last s_lastid].
    + exact A.
    + rewrite app_length. cbn [List.length]. lia.
    + exact C.
    + intros k Hk. apply cell_ok_more; [reflexivity|]. now apply D.
    + exact E.
    + exact F.
    + rewrite app_length. lia.
    + destruct L as [L|(d1 & z1 & m & front & r & L1 & L2 & L3)]; [left; exact L|]. right. exists d1, z1, (S m), front, r.
      split; [rewrite L1, <- app_assoc; cbn [app]; now rewrite repeat_snoc|]. split; assumption.
Qed.

Lemma scan_points_inv n named maxmem ps : forall d s G, 0 < n < 2 ^ 32 -> Z.of_nat (length (d ++ ps)) < 2 ^ 32 ->
  placed_in n ps -> ~ rejoins (d ++ ps) -> inv n d s G ->
  exists s' G', scan_points n named maxmem s ps = Ok s' /\ inv n (d ++ ps) s' G' /\ (named = false -> t_file (s_temp s) = None -> t_file (s_temp s') = None).
Proof.
  induction ps as [|p ps IH]; intros d s G Hn Hd HP HR I; cbn [scan_points].
  - exists s, G. rewrite app_nil_r. split; [reflexivity|]. split; [exact I|auto].
  - inversion HP as [|? ? P1 P2]; subst. rewrite app_length in Hd. cbn [List.length] in Hd.
    destruct (scan_point_inv n named maxmem d s G p ps Hn ltac:(lia)) as (s1 & G1 & E1 & E2 & E3); [repeat constructor; exact P1|exact HR|exact I|].
    rewrite E1. cbn [obind]. destruct (IH (d ++ [p]) s1 G1 Hn) as (s2 & G2 & F1 & F2 & F3).
    + rewrite !app_length. cbn [List.length]. lia.
    + exact P2.
    + now rewrite <- app_assoc.
    + exact E2.
    + exists s2, G2. split; [exact F1|]. rewrite <- app_assoc in F2. split; [exact F2|auto].
Qed.

Lemma of_cell_in k G r : In r (of_cell k G) -> exists b, In (k, b) G /\ In r b.
Proof.
  unfold of_cell. rewrite in_flat_map. intros ([j b] & H1 & H2). cbn [fst snd] in H2. destruct (Z.eqb_spec j k) as [->|]; [eauto|destruct H2].
Qed.
Lemma in_of_cell k G b r : In (k, b) G -> In r b -> In r (of_cell k G).
Proof. intros H1 H2. unfold of_cell. apply in_flat_map. exists (k, b). cbn [fst snd]. rewrite Z.eqb_refl. auto. Qed.
Lemma block_le b G k : In (k, b) G -> Z.of_nat (length b) <= nruns G.
Proof.
  unfold nruns. induction G as [|[j c] G IH]; intros H; [destruct H|]. cbn [flat_map snd]. rewrite app_length. destruct H as [H|H]; [|specialize (IH H); lia].
  apply (f_equal snd) in H. cbn [snd] in H. subst. lia.
Qed.
Lemma pinv_blocks n d cells t G : Z.of_nat (length d) < 2 ^ 32 -> pinv n d cells t G -> blocks_ok G.
Proof.
  intros Hd [A B C D E F]. apply Forall_forall. intros [k b] H. cbn [snd]. split.
  - apply Forall_forall. intros r Hr. destruct (C k (D k b H)) as (_ & X & _). apply Forall_app in X. destruct X as (X & _).
    rewrite Forall_forall in X. specialize (X r (in_of_cell _ _ _ _ H Hr)). unfold run_ok. lia.
  - pose proof (block_le _ _ _ H). unfold mruns in F. lia.
Qed.

(** Loading a cell with nothing in memory after any history. *)
Lemma pinv_load n d cells t G k : 0 < n < 2 ^ 32 -> Z.of_nat (length d) < 2 ^ 32 -> pinv n d cells t G -> t_file t <> None ->
  0 <= k < n -> k_pts (nth (Z.to_nat k) cells cell0) = [] ->
  exists c, load_cell t k (nth (Z.to_nat k) cells cell0) = Ok (Some c) /\ expand (k_pts c) = ids_of k d /\ k_num c = Z.of_nat (length (ids_of k d)) /\
    Forall (fun r => 0 <= fst r < 2 ^ 32 /\ 1 <= snd r < 256) (k_pts c) /\ ascending (k_pts c) /\ k_pts c = of_cell k G /\
    k_minz c = k_minz (nth (Z.to_nat k) cells cell0) /\ k_maxz c = k_maxz (nth (Z.to_nat k) cells cell0) /\ k_zsub c = [] /\ k_xysub c = [].
Proof.
  intros Hn Hd P HT Hk HE. pose proof (pinv_blocks _ _ _ _ _ Hd P) as BO. destruct P as [A B C D E F]. pose proof (total_nruns G E) as TN. unfold mruns in F.
  rewrite (load_cell_ok n G t cells k _ Hn Hk B HT ltac:(lia) BO).
  destruct (C k Hk) as (C1 & C2 & C3 & C4 & C5 & C6 & C7 & C8 & C9). rewrite HE, app_nil_r in *. set (c := nth (Z.to_nat k) cells cell0) in *.
  assert (X : add_runs (set_num_points c 0) (of_cell k G) = k_with_pts (set_num_points c 0) (Z.of_nat (length (ids_of k d))) (of_cell k G)).
  { pose proof (ids_length k d). rewrite add_runs_ok.
    - cbn [k_num k_pts set_num_points k_with_pts]. rewrite HE, C1. reflexivity.
    - cbn [k_pts set_num_points k_with_pts]. now rewrite HE.
    - eapply Forall_impl; [|exact C2]. unfold run_ok. intros r Hr. cbv beta in Hr. lia.
    - reflexivity.
    - cbn [k_num set_num_points k_with_pts]. rewrite C1. lia. }
  rewrite X. cbn [k_num k_with_pts]. rewrite C5, Z.eqb_refl. eexists. split; [reflexivity|]. cbn [k_pts k_num k_minz k_maxz k_zsub k_xysub k_with_pts set_num_points].
  repeat (split; [assumption || reflexivity|]). assumption.
Qed.

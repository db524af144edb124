(** The content of the temporary index file as a function of what was written to
    it, and the proof that purging and loading follow it. *)
From Coq Require Import ZArith List Bool Lia.
Import ListNotations.
From Verif Require Import Outcome Bytes Stream_Model Chipper_Spec Chipper_Lists Index_Cell Index_Temp.
Local Open Scope Z_scope.
Local Notation length := List.length (only parsing).

(** The blocks written so far: for each the cell it belongs to and the records. *)
Definition blocks : Type := list (Z * runs).

Definition run_bytes (r : Z * Z) : list Z := le_enc 4 (fst r) ++ le_enc 1 (snd r).
Definition bsize (m : runs) : Z := 12 + 5 * Z.of_nat (length m).
Fixpoint total (G : blocks) : Z := match G with [] => 0 | (_, m) :: G => bsize m + total G end.
(** offset of the first block of cell [k] when the blocks start at [o]; 0: none *)
Fixpoint next_off (o : Z) (k : Z) (G : blocks) : Z :=
  match G with
  | [] => 0
  | (j, m) :: G => if j =? k then o else next_off (o + bsize m) k G
  end.
Fixpoint last_off (o : Z) (k : Z) (G : blocks) : Z :=
  match G with
  | [] => 0
  | (j, m) :: G => let r := last_off (o + bsize m) k G in if r =? 0 then (if j =? k then o else 0) else r
  end.
Definition block_bytes (next : Z) (m : runs) : list Z :=
  le_enc 8 next ++ le_enc 4 (Z.of_nat (length m)) ++ flat_map run_bytes m.
Fixpoint layout (o : Z) (G : blocks) : list Z :=
  match G with
  | [] => []
  | (k, m) :: G => block_bytes (next_off (o + bsize m) k G) m ++ layout (o + bsize m) G
  end.
Definition table (n : Z) (G : blocks) : list Z :=
  flat_map (fun k => le_enc 8 (next_off (8 * n) k G)) (zseq 0 (Z.to_nat n)).
Definition image (n : Z) (G : blocks) : list Z := table n G ++ layout (8 * n) G.
(** the records of cell [k], in the order they were written *)
Definition of_cell (k : Z) (G : blocks) : runs := flat_map (fun b => if fst b =? k then snd b else []) G.
Definition owns (k : Z) (G : blocks) : bool := existsb (fun b => fst b =? k) G.

Lemma flat_map_app' {A B} (f : A -> list B) a b : flat_map f (a ++ b) = flat_map f a ++ flat_map f b.
Proof. apply flat_map_app. Qed.

(** ** sizes *)
Lemma bsize_pos m : 12 <= bsize m. Proof. unfold bsize. lia. Qed.
Lemma total_nonneg G : 0 <= total G.
Proof. induction G as [|[k m] G IH]; cbn [total]; [lia|]. pose proof (bsize_pos m). lia. Qed.
Lemma total_app G H : total (G ++ H) = total G + total H.
Proof. induction G as [|[k m] G IH]; cbn [app total]; lia. Qed.
Lemma runs_bytes_length m : Z.of_nat (length (flat_map run_bytes m)) = 5 * Z.of_nat (length m).
Proof. induction m as [|r m IH]; cbn [flat_map List.length]; [reflexivity|]. unfold run_bytes at 1. rewrite !app_length, !le_enc_length. lia. Qed.
Lemma block_bytes_length nx m : Z.of_nat (length (block_bytes nx m)) = bsize m.
Proof. unfold block_bytes, bsize. rewrite !app_length, !le_enc_length. pose proof (runs_bytes_length m). lia. Qed.
Lemma layout_length G : forall o, Z.of_nat (length (layout o G)) = total G.
Proof. induction G as [|[k m] G IH]; intros o; cbn [layout total]; [reflexivity|]. rewrite app_length. pose proof (block_bytes_length (next_off (o + bsize m) k G) m). specialize (IH (o + bsize m)). lia. Qed.
Lemma flat8_length (f : Z -> Z) l : length (flat_map (fun k => le_enc 8 (f k)) l) = (8 * length l)%nat.
Proof. induction l as [|x l IH]; [reflexivity|]. cbn [flat_map]. rewrite app_length, le_enc_length, IH. cbn [List.length]. lia. Qed.
Lemma table_length n G : 0 <= n -> Z.of_nat (length (table n G)) = 8 * n.
Proof. intros. unfold table. rewrite flat8_length, zseq_length. lia. Qed.
Lemma image_length n G : 0 <= n -> Z.of_nat (length (image n G)) = 8 * n + total G.
Proof. intros. unfold image. rewrite app_length. pose proof (table_length n G H). pose proof (layout_length G (8 * n)). lia. Qed.

(** ** offsets *)
Lemma next_off_none k G : forall o, owns k G = false -> next_off o k G = 0.
Proof. induction G as [|[j m] G IH]; intros o; cbn [owns existsb next_off fst]; [reflexivity|]. destruct (j =? k); cbn [orb]; [discriminate|]. apply IH. Qed.
Lemma next_off_range k G : forall o, 0 < o -> (owns k G = true -> o <= next_off o k G < o + total G) /\ (owns k G = false -> next_off o k G = 0).
Proof.
  induction G as [|[j m] G IH]; intros o Ho; cbn [owns existsb next_off fst total]; [split; [discriminate|reflexivity]|].
  pose proof (bsize_pos m). pose proof (total_nonneg G). destruct (j =? k); cbn [orb]; [split; [lia|discriminate]|].
  destruct (IH (o + bsize m) ltac:(lia)) as (A & B). split; intros E; [specialize (A E); lia|auto].
Qed.
Lemma last_off_range k G : forall o, 0 < o -> (owns k G = true -> o <= last_off o k G < o + total G) /\ (owns k G = false -> last_off o k G = 0).
Proof.
  induction G as [|[j m] G IH]; intros o Ho; cbn [owns existsb last_off fst total]; [split; [discriminate|reflexivity]|].
  pose proof (bsize_pos m). pose proof (total_nonneg G). destruct (IH (o + bsize m) ltac:(lia)) as (A & B). fold (owns k G).
  destruct (owns k G) eqn:O.
  - specialize (A eq_refl). split; [|rewrite orb_true_r; discriminate]. intros _. destruct (Z.eqb_spec (last_off (o + bsize m) k G) 0); lia.
  - rewrite (B eq_refl). cbn [Z.eqb]. destruct (j =? k); cbn [orb]; split; intros; try discriminate; lia.
Qed.
Lemma owns_snoc k G j m : owns k (G ++ [(j, m)]) = owns k G || (j =? k).
Proof. unfold owns. rewrite existsb_app. cbn [existsb fst]. now rewrite orb_false_r. Qed.
Lemma next_off_snoc k G j m : forall o, next_off o k (G ++ [(j, m)]) =
  if owns k G then next_off o k G else if j =? k then o + total G else 0.
Proof.
  induction G as [|[i r] G IH]; intros o; cbn [app next_off owns existsb fst total]; [now rewrite Z.add_0_r|].
  destruct (i =? k); cbn [orb]; [reflexivity|]. rewrite IH. fold (owns k G). destruct (owns k G); [reflexivity|]. destruct (j =? k); [lia|reflexivity].
Qed.
Lemma last_off_snoc k G j m : forall o, 0 < o -> last_off o k (G ++ [(j, m)]) = if j =? k then o + total G else last_off o k G.
Proof.
  induction G as [|[i r] G IH]; intros o Ho; cbn [app last_off fst total].
  - cbn [Z.eqb]. now rewrite Z.add_0_r.
  - pose proof (bsize_pos r). pose proof (total_nonneg G). rewrite IH by lia. destruct (j =? k); [|reflexivity].
    destruct (Z.eqb_spec (o + bsize r + total G) 0); lia.
Qed.

(** ** one more block *)
Lemma layout_snoc_other k G m : owns k G = false -> forall o, layout o (G ++ [(k, m)]) = layout o G ++ block_bytes 0 m.
Proof.
  induction G as [|[i r] G IH]; intros O o; cbn [app layout].
  - cbn [next_off]. now rewrite app_nil_r.
  - cbn [owns existsb fst] in O. fold (owns k G) in O. apply orb_false_iff in O. destruct O as (O1 & O2). rewrite IH by exact O2.
    rewrite next_off_snoc. replace (k =? i) with (i =? k) by apply Z.eqb_sym. rewrite O1.
    destruct (owns i G) eqn:OI; [now rewrite app_assoc|]. rewrite (next_off_none i G _ OI). now rewrite app_assoc.
Qed.
Lemma layout_snoc_same k G m : owns k G = true -> forall o, 0 < o -> exists A old B,
  layout o G = A ++ old ++ B /\ length old = 8%nat /\ Z.of_nat (length A) = last_off o k G - o /\
  layout o (G ++ [(k, m)]) = A ++ le_enc 8 (o + total G) ++ B ++ block_bytes 0 m.
Proof.
  induction G as [|[i r] G IH]; intros O o Ho; [discriminate|]. cbn [owns existsb fst] in O. fold (owns k G) in O. cbn [app layout last_off total].
  pose proof (bsize_pos r). destruct (owns k G) eqn:OG.
  - destruct (IH eq_refl (o + bsize r) ltac:(lia)) as (A & old & B & E1 & E2 & E3 & E4).
    destruct (last_off_range k G (o + bsize r) ltac:(lia)) as (LR & _). specialize (LR OG). cbv zeta. destruct (Z.eqb_spec (last_off (o + bsize r) k G) 0); [lia|].
    exists (block_bytes (next_off (o + bsize r) i G) r ++ A), old, B. rewrite E1. rewrite <- !app_assoc. split; [reflexivity|]. split; [exact E2|].
    split; [rewrite app_length; pose proof (block_bytes_length (next_off (o + bsize r) i G) r); lia|].
    rewrite E4. rewrite next_off_snoc. replace (o + bsize r + total G) with (o + (bsize r + total G)) by lia.
    destruct (owns i G) eqn:OI; [reflexivity|]. destruct (Z.eqb_spec k i) as [<-|]; [congruence|]. now rewrite (next_off_none i G _ OI).
  - rewrite orb_false_r in O. apply Z.eqb_eq in O. subst i. cbv zeta. rewrite Z.eqb_refl.
    destruct (last_off_range k G (o + bsize r) ltac:(lia)) as (_ & LR). rewrite (LR OG). cbn [Z.eqb].
    exists [], (le_enc 8 (next_off (o + bsize r) k G)), (le_enc 4 (Z.of_nat (length r)) ++ flat_map run_bytes r ++ layout (o + bsize r) G).
    unfold block_bytes at 1. cbn [app List.length]. rewrite <- !app_assoc. split; [reflexivity|]. split; [apply le_enc_length|]. split; [cbn; lia|].
    rewrite layout_snoc_other by exact OG. rewrite next_off_snoc, OG, Z.eqb_refl. unfold block_bytes at 1. rewrite <- !app_assoc. replace (o + bsize r + total G) with (o + (bsize r + total G)) by lia. reflexivity.
Qed.
Lemma flat8_split (f : Z -> Z) k n : 0 <= k < Z.of_nat n -> flat_map (fun j => le_enc 8 (f j)) (zseq 0 n) =
  flat_map (fun j => le_enc 8 (f j)) (zseq 0 (Z.to_nat k)) ++ le_enc 8 (f k) ++ flat_map (fun j => le_enc 8 (f j)) (zseq (k + 1) (n - Z.to_nat k - 1)).
Proof.
  intros H. replace n with (Z.to_nat k + S (n - Z.to_nat k - 1))%nat at 1 by lia. rewrite zseq_app, zseq_S, flat_map_app'. cbn [flat_map].
  replace (0 + Z.of_nat (Z.to_nat k)) with k by lia. reflexivity.
Qed.
Lemma flat8_ext (f g : Z -> Z) l : (forall k, In k l -> f k = g k) -> flat_map (fun j => le_enc 8 (f j)) l = flat_map (fun j => le_enc 8 (g j)) l.
Proof. induction l as [|x l IH]; intros H; [reflexivity|]. cbn [flat_map]. rewrite (H x (or_introl eq_refl)), IH; [reflexivity|]. intros; apply H; now right. Qed.
Lemma table_snoc_same n k G m : owns k G = true -> table n (G ++ [(k, m)]) = table n G.
Proof.
  intros O. unfold table. apply flat8_ext. intros j _. rewrite next_off_snoc. destruct (owns j G) eqn:OJ; [reflexivity|].
  destruct (Z.eqb_spec k j) as [<-|]; [congruence|]. now rewrite next_off_none.
Qed.

Lemma file_write_end d bs : file_write d (length d) bs = d ++ bs.
Proof.
  destruct bs as [|b bs]; [now rewrite app_nil_r|]. unfold file_write. rewrite firstn_all, Nat.sub_diag. cbn [repeat app].
  rewrite skipn_all2 by lia. now rewrite app_nil_r.
Qed.
Lemma file_write_mid a old b bs p : p = length a -> length old = length bs -> file_write (a ++ old ++ b) p bs = a ++ bs ++ b.
Proof.
  intros -> E. destruct bs as [|y bs]; [destruct old; [reflexivity|discriminate]|]. unfold file_write.
  rewrite firstn_app, firstn_all, Nat.sub_diag. cbn [firstn]. rewrite app_nil_r. f_equal.
  replace (length a - length (a ++ old ++ b))%nat with 0%nat by (rewrite app_length; lia). cbn [repeat app]. f_equal. f_equal.
  rewrite app_assoc, skipn_app. replace (length a + length (y :: bs) - length (a ++ old))%nat with 0%nat by (rewrite app_length; lia).
  rewrite skipn_all2 by (rewrite app_length; lia). reflexivity.
Qed.

Lemma image_snoc n k G m : 0 <= k < n ->
  file_write (image n G) (Z.to_nat (if last_off (8 * n) k G =? 0 then k * 8 else last_off (8 * n) k G)) (le_enc 8 (8 * n + total G)) ++ block_bytes 0 m
  = image n (G ++ [(k, m)]).
Proof.
  intros Hk. pose proof (table_length n G ltac:(lia)) as HT. destruct (last_off_range k G (8 * n) ltac:(lia)) as (L1 & L2). destruct (owns k G) eqn:O.
  - specialize (L1 eq_refl). destruct (Z.eqb_spec (last_off (8 * n) k G) 0); [lia|].
    destruct (layout_snoc_same k G m O (8 * n) ltac:(lia)) as (A & old & B & E1 & E2 & E3 & E4). unfold image. rewrite table_snoc_same by exact O. rewrite E1, E4.
    rewrite app_assoc, file_write_mid; [now rewrite <- !app_assoc|rewrite app_length; lia|now rewrite le_enc_length].
  - rewrite (L2 eq_refl). cbn [Z.eqb]. unfold image. rewrite layout_snoc_other by exact O. unfold table.
    rewrite !(flat8_split _ k (Z.to_nat n)) by lia. rewrite <- !app_assoc. rewrite file_write_mid.
    2:{ rewrite flat8_length, zseq_length. lia. }
    2:{ now rewrite !le_enc_length. }
    rewrite <- !app_assoc. rewrite next_off_snoc, O, Z.eqb_refl.
    assert (X : forall l, ~ In k l -> flat_map (fun j => le_enc 8 (next_off (8 * n) j (G ++ [(k, m)]))) l = flat_map (fun j => le_enc 8 (next_off (8 * n) j G)) l).
    { intros l Hl. apply flat8_ext. intros j Hj. rewrite next_off_snoc. destruct (owns j G) eqn:OJ; [reflexivity|]. destruct (Z.eqb_spec k j) as [<-|]; [contradiction|]. now rewrite next_off_none. }
    rewrite !X; [reflexivity| |]; rewrite zseq_In; lia.
Qed.

(** ** purging *)
Lemma le_enc_0 w : le_enc 0 w = []. Proof. reflexivity. Qed.
Lemma fwrite_end d bs p : p = length d -> fwrite (mkFile d p) bs = mkFile (d ++ bs) (length (d ++ bs)).
Proof. intros ->. unfold fwrite. cbn [cf_bytes cf_pos]. now rewrite file_write_end, app_length. Qed.
Lemma write_runs_ok m : forall d p w, p = length d -> 0 <= w -> w + 5 * Z.of_nat (length m) < 2 ^ 64 ->
  write_runs (mkFile d p) w m = (mkFile (d ++ flat_map run_bytes m) (length (d ++ flat_map run_bytes m)), w + 5 * Z.of_nat (length m)).
Proof.
  induction m as [|[id c] m IH]; intros d p w Hp Hw Hb; cbn [write_runs flat_map].
  - rewrite app_nil_r. subst p. f_equal. cbn [List.length]. lia.
  - cbn [List.length] in Hb. rewrite !fwrite_end by (auto; reflexivity). rewrite (Z.mod_small (w + 4 + 1)) by lia. rewrite IH by (auto; lia).
    unfold run_bytes at 3 4. cbn [fst snd]. rewrite <- !app_assoc. f_equal. cbn [List.length]. lia.
Qed.
Lemma firstn_all' {A} (l : list A) : firstn (Z.to_nat (Z.of_nat (length l))) l = l.
Proof. rewrite Nat2Z.id. apply firstn_all. Qed.

Definition nonempty (k : Z) (m : runs) : blocks := match m with [] => [] | _ => [(k, m)] end.
Lemma purge_cell_ok n G k c f : 0 <= k < n -> Z.of_nat (length (k_pts c)) < 2 ^ 32 -> 8 * n + total G + bsize (k_pts c) < 2 ^ 64 ->
  cf_bytes f = image n G -> k_off c = last_off (8 * n) k G ->
  exists c' f', purge_cell f (8 * n + total G) k c = (c', f', 8 * n + total (G ++ nonempty k (k_pts c))) /\
    cf_bytes f' = image n (G ++ nonempty k (k_pts c)) /\ k_off c' = last_off (8 * n) k (G ++ nonempty k (k_pts c)) /\
    k_pts c' = [] /\ k_num c' = k_num c /\ k_minz c' = k_minz c /\ k_maxz c' = k_maxz c /\ k_zsub c' = k_zsub c /\ k_xysub c' = k_xysub c.
Proof.
  intros Hk HL HB Hf Ho. pose proof (total_nonneg G) as TN. pose proof (bsize_pos (k_pts c)) as BP. unfold purge_cell.
  assert (NR : get_num_records c = Z.of_nat (length (k_pts c))) by (unfold get_num_records; apply Z.mod_small; lia). rewrite NR.
  destruct (k_pts c) as [|r0 m0] eqn:EP.
  - cbn [List.length nonempty]. rewrite app_nil_r. exists c, f. now rewrite EP.
  - rewrite <- EP in *. destruct (Z.eqb_spec (Z.of_nat (length (k_pts c))) 0) as [E|_]; [rewrite EP in E; discriminate|].
    assert (NE : nonempty k (k_pts c) = [(k, k_pts c)]) by now rewrite EP. rewrite NE.
    assert (NR' : get_num_records (set_file_offset c (8 * n + total G)) = Z.of_nat (length (k_pts c))) by exact NR. rewrite NR'.
    destruct (last_off_range k G (8 * n) ltac:(lia)) as (L1 & L2).
    assert (LO : (if k_off c =? 0 then (k * 8) mod 2 ^ 64 else k_off c) = (if last_off (8 * n) k G =? 0 then k * 8 else last_off (8 * n) k G)).
    { rewrite Ho. destruct (Z.eqb_spec (last_off (8 * n) k G) 0); [apply Z.mod_small; lia|reflexivity]. }
    rewrite LO. set (loc := if last_off (8 * n) k G =? 0 then k * 8 else last_off (8 * n) k G).
    unfold fseek_set at 1.
    assert (W1 : fwrite (mkFile (cf_bytes f) (Z.to_nat loc)) (le_enc 8 (8 * n + total G)) = mkFile (file_write (image n G) (Z.to_nat loc) (le_enc 8 (8 * n + total G))) (Z.to_nat loc + 8)) by (unfold fwrite; cbn [cf_bytes cf_pos]; rewrite Hf, le_enc_length; reflexivity).
    rewrite W1. unfold fseek_end. cbn [cf_bytes].
    rewrite !fwrite_end by reflexivity. cbn [k_pts set_file_offset k_with_pts]. rewrite firstn_all'.
    unfold bsize in HB. rewrite (Z.mod_small (8 * n + total G + 8)) by lia. rewrite (Z.mod_small (8 * n + total G + 8 + 4)) by lia.
    rewrite write_runs_ok by (auto; lia). eexists _, _. split.
    { f_equal. rewrite total_app. cbn [total]. unfold bsize. lia. }
    cbn [cf_bytes]. split.
    { rewrite <- image_snoc by lia. fold loc. unfold block_bytes. now rewrite <- !app_assoc. }
    split; [cbn [k_off remove_main_records set_file_offset k_with_pts]; rewrite last_off_snoc by lia; now rewrite Z.eqb_refl|].
    repeat split.
Qed.

(** what a purge of the cells from number [k] on writes *)
Fixpoint purged_from (k : Z) (cells : list cell) : blocks :=
  match cells with [] => [] | c :: cells => nonempty k (k_pts c) ++ purged_from (k + 1) cells end.
Definition same_but_runs (a b : cell) : Prop :=
  k_num b = k_num a /\ k_minz b = k_minz a /\ k_maxz b = k_maxz a /\ k_zsub b = k_zsub a /\ k_xysub b = k_xysub a.
(** cells numbered from [k] have the offset of their last block *)
Definition offs_ok (n k : Z) (G : blocks) (cells : list cell) : Prop :=
  forall i c, nth_error cells i = Some c -> k_off c = last_off (8 * n) (k + Z.of_nat i) G.
Definition runs_small (c : cell) : Prop := Z.of_nat (length (k_pts c)) < 2 ^ 32.

Lemma last_off_nonempty o k j m G : 0 < o -> k <> j -> last_off o k (G ++ nonempty j m) = last_off o k G.
Proof. intros Ho N. destruct m; cbn [nonempty]; [now rewrite app_nil_r|]. rewrite last_off_snoc by lia. destruct (Z.eqb_spec j k); [congruence|reflexivity]. Qed.
Lemma last_off_purged o k cells : 0 < o -> forall j G, k < j -> last_off o k (G ++ purged_from j cells) = last_off o k G.
Proof.
  intros Ho. induction cells as [|c cells IH]; intros j G H; cbn [purged_from]; [now rewrite app_nil_r|].
  rewrite app_assoc, IH by lia. apply last_off_nonempty; lia.
Qed.
Lemma total_nonempty k m : 0 <= total (nonempty k m) <= bsize m.
Proof. destruct m; cbn [nonempty total]; [unfold bsize; cbn; lia|]. pose proof (bsize_pos (p :: m)). lia. Qed.
Lemma total_purged k cells : 0 <= total (purged_from k cells). Proof. apply total_nonneg. Qed.

Lemma purge_cells_ok n : 0 < n -> forall cells k G f, 0 <= k -> k + Z.of_nat (length cells) <= n ->
  Forall runs_small cells -> 8 * n + total (G ++ purged_from k cells) + 12 < 2 ^ 64 -> cf_bytes f = image n G -> offs_ok n k G cells ->
  exists cells' f', purge_cells f (8 * n + total G) k cells = (cells', f', 8 * n + total (G ++ purged_from k cells)) /\
    cf_bytes f' = image n (G ++ purged_from k cells) /\ offs_ok n k (G ++ purged_from k cells) cells' /\
    Forall2 (fun a b => same_but_runs a b /\ k_pts b = []) cells cells'.
Proof.
  intros Hn. induction cells as [|c cells IH]; intros k G f Hk HL HR HB Hf HO; cbn [purge_cells purged_from].
  - rewrite app_nil_r. exists [], f. split; [reflexivity|]. split; [exact Hf|]. split; [exact HO|constructor].
  - cbn [List.length] in HL. inversion HR as [|? ? R1 R2]; subst. cbn [purged_from] in HB. rewrite app_assoc in HB.
    assert (B0 : total (G ++ nonempty k (k_pts c)) <= total ((G ++ nonempty k (k_pts c)) ++ purged_from (k + 1) cells)) by (rewrite (total_app (G ++ _)); pose proof (total_purged (k + 1) cells); lia).
    assert (B1 : 8 * n + total G + bsize (k_pts c) < 2 ^ 64).
    { rewrite total_app in B0. unfold bsize. destruct (k_pts c) as [|r m] eqn:E; cbn [nonempty total List.length] in *; [lia|]. unfold bsize in B0. cbn [List.length] in B0. lia. }
    destruct (purge_cell_ok n G k c f ltac:(lia) R1 B1 Hf) as (c' & f1 & E1 & E2 & E3 & E4 & E5).
    { specialize (HO 0%nat c eq_refl). now rewrite Z.add_0_r in HO. }
    rewrite E1. rewrite app_assoc. destruct (IH (k + 1) (G ++ nonempty k (k_pts c)) f1 ltac:(lia) ltac:(lia) R2 HB E2) as (cs' & f2 & F1 & F2 & F3 & F4).
    { intros i d Hd. specialize (HO (S i) d Hd). rewrite HO, last_off_nonempty by lia. f_equal. lia. }
    rewrite F1. exists (c' :: cs'), f2. split; [reflexivity|]. split; [exact F2|]. split.
    + intros [|i] d Hd; cbn [nth_error] in Hd.
      * inversion Hd; subst d. rewrite E3, Z.add_0_r, last_off_purged by lia. reflexivity.
      * rewrite (F3 i d Hd). f_equal. lia.
    + constructor; [|exact F4]. split; [unfold same_but_runs; tauto|exact E4].
Qed.

(** The state of the temporary file after the blocks [G] were written. *)
Definition holds (n : Z) (G : blocks) (t : temp) (cells : list cell) : Prop :=
  offs_ok n 0 G cells /\
  ((G = [] /\ t_file t = None) \/
   (exists f, t_file t = Some f /\ t_started t = true /\ t_written t = 8 * n + total G /\ cf_bytes f = image n G)).

Lemma write_table_ok m : forall d, write_table m (mkFile d (length d)) = mkFile (d ++ flat_map (fun _ => le_enc 8 0) (seq 0 m)) (length (d ++ flat_map (fun _ => le_enc 8 0) (seq 0 m))).
Proof.
  induction m as [|m IH]; intros d; cbn [write_table]; [cbn [seq flat_map]; now rewrite app_nil_r|].
  rewrite fwrite_end by reflexivity. rewrite IH. rewrite <- app_assoc.
  assert (X : le_enc 8 0 ++ flat_map (fun _ : nat => le_enc 8 0) (seq 0 m) = flat_map (fun _ : nat => le_enc 8 0) (seq 0 (S m))).
  { cbn [seq flat_map]. f_equal. rewrite <- (seq_shift m 0). rewrite flat_map_concat_map, flat_map_concat_map, map_map. reflexivity. }
  now rewrite X.
Qed.
Lemma table_nil n : table n [] = flat_map (fun _ => le_enc 8 0) (seq 0 (Z.to_nat n)).
Proof. unfold table, zseq. cbn [next_off]. rewrite !flat_map_concat_map, map_map. reflexivity. Qed.

Lemma some_inj {A} (a b : A) : Some a = Some b -> a = b. Proof. congruence. Qed.
Lemma purge_ok n G t cells : 0 < n < 2 ^ 32 -> Z.of_nat (length cells) = n -> Forall runs_small cells ->
  8 * n + total (G ++ purged_from 0 cells) + 12 < 2 ^ 64 -> holds n G t cells ->
  exists cells' t', purge n t cells = (cells', t') /\ holds n (G ++ purged_from 0 cells) t' cells' /\
    t_file t' <> None /\ Forall2 (fun a b => same_but_runs a b /\ k_pts b = []) cells cells'.
Proof.
  intros Hn HL HR HB (HO & HT). unfold purge.
  assert (X : exists f, (let t0 := match t_file t with Some _ => t | None => open_temp t end in
     match t_file t0 with
     | Some f => Some (if t_started t0 then (f, t_written t0) else (write_table (Z.to_nat n) f, (n * 8) mod 2 ^ 64))
     | None => None end) = Some (f, 8 * n + total G) /\ cf_bytes f = image n G).
  { destruct HT as [(-> & E1)|(f & E1 & E2 & E3 & E4)]; rewrite E1.
    - cbn [open_temp t_file t_started]. eexists. split; [rewrite (Z.mod_small (n * 8)) by lia; cbn [total]; rewrite Z.add_0_r, (Z.mul_comm n 8); reflexivity|].
      change 0%nat with (length (@nil Z)). rewrite write_table_ok. cbn [cf_bytes app]. unfold image. cbn [layout]. rewrite app_nil_r. symmetry. apply table_nil.
    - cbv zeta. rewrite E1, E2, E3. exists f. split; [reflexivity|exact E4]. }
  destruct X as (f & X & Hf). cbv zeta in X.
  destruct (t_file match t_file t with Some _ => t | None => open_temp t end) as [f0|]; [|discriminate]. apply some_inj in X. rewrite X.
  destruct (purge_cells_ok n ltac:(lia) cells 0 G f ltac:(lia) ltac:(lia) HR HB Hf HO) as (cells' & f' & E1 & E2 & E3 & E4). rewrite E1.
  eexists _, _. split; [reflexivity|]. split; [|split; [discriminate|exact E4]]. split; [exact E3|]. right. exists f'. repeat split; assumption.
Qed.

(** ** loading *)
Definition add_runs (c : cell) (m : runs) : cell := fold_left (fun c r => add_point_run c (fst r) (snd r)) m c.
Definition run_ok (r : Z * Z) : Prop := 0 <= fst r < 2 ^ 32 /\ 0 <= snd r < 256.
Definition blocks_ok (G : blocks) : Prop := Forall (fun b => Forall run_ok (snd b) /\ Z.of_nat (length (snd b)) < 2 ^ 32) G.

Lemma fread_at a n v b p : 0 <= v < pow256 n -> p = length a -> fread (mkFile (a ++ le_enc n v ++ b) p) n = Some (v, mkFile (a ++ le_enc n v ++ b) (p + n)).
Proof.
  intros Hv ->. unfold fread. cbn [cf_bytes cf_pos]. rewrite buf_get_some by (rewrite !app_length, le_enc_length; lia).
  rewrite skipn_app, skipn_all2, Nat.sub_diag by lia. cbn [skipn app]. rewrite firstn_app, le_enc_length, Nat.sub_diag. cbn [firstn]. rewrite app_nil_r.
  rewrite firstn_all2 by (rewrite le_enc_length; lia). rewrite le_dec_enc, Z.mod_small by exact Hv. reflexivity.
Qed.
Lemma read_runs_ok m : forall a b c p, Forall run_ok m -> p = length a ->
  exists f, read_runs (length m) (mkFile (a ++ flat_map run_bytes m ++ b) p) c = Some (add_runs c m, f) /\ cf_bytes f = a ++ flat_map run_bytes m ++ b.
Proof.
  induction m as [|[id k] m IH]; intros a b c p HF Hp; cbn [List.length read_runs flat_map].
  - eexists. split; [reflexivity|]. reflexivity.
  - inversion HF as [|? ? [R1 R2] HF']; subst. cbn [fst snd] in R1, R2. change (run_bytes (id, k)) with (le_enc 4 id ++ le_enc 1 k). rewrite <- !app_assoc.
    rewrite fread_at by (auto; change (pow256 4) with (2 ^ 32); lia).
    rewrite (app_assoc a (le_enc 4 id)). rewrite fread_at by first [rewrite app_length, le_enc_length; reflexivity|change (pow256 1) with 256; lia].
    rewrite (app_assoc (a ++ le_enc 4 id)). destruct (IH ((a ++ le_enc 4 id) ++ le_enc 1 k) b (add_point_run c id k) (length a + 4 + 1)%nat HF') as (f & E & F); [rewrite !app_length, !le_enc_length; lia|].
    exists f. rewrite E. split; [reflexivity|exact F].
Qed.
Lemma add_runs_app c a b : add_runs c (a ++ b) = add_runs (add_runs c a) b.
Proof. apply fold_left_app. Qed.

Lemma load_chain_ok k G : forall P c fuel f, 0 < Z.of_nat (length P) -> Z.of_nat (length P) + total G < 2 ^ 64 -> blocks_ok G ->
  cf_bytes f = P ++ layout (Z.of_nat (length P)) G -> (length G <= fuel)%nat ->
  load_chain fuel f (next_off (Z.of_nat (length P)) k G) c = Ok (Some (add_runs c (of_cell k G))).
Proof.
  induction G as [|[j m] G IH]; intros P c fuel f HP HB HG Hf Hfuel; cbn [next_off of_cell flat_map fst snd].
  - destruct fuel; reflexivity.
  - inversion HG as [|? ? [G1 G2] HG']; subst. cbn [snd] in G1, G2. cbn [layout] in Hf. cbn [total] in HB. pose proof (bsize_pos m). pose proof (total_nonneg G).
    set (o := Z.of_nat (length P)) in *.
    assert (LP : Z.of_nat (length (P ++ block_bytes (next_off (o + bsize m) j G) m)) = o + bsize m).
    { rewrite app_length. pose proof (block_bytes_length (next_off (o + bsize m) j G) m). lia. }
    assert (IH' : forall c' f' fu, cf_bytes f' = cf_bytes f -> (length G <= fu)%nat ->
       load_chain fu f' (next_off (o + bsize m) k G) c' = Ok (Some (add_runs c' (of_cell k G)))).
    { intros c' f' fu Ef Hfu. specialize (IH (P ++ block_bytes (next_off (o + bsize m) j G) m) c' fu f'). rewrite LP in IH. apply IH; auto; try lia. rewrite Ef, Hf. now rewrite <- app_assoc. }
    cbn [List.length] in Hfuel. destruct (Z.eqb_spec j k) as [->|N].
    + destruct fuel as [|fuel]; [lia|]. cbn [load_chain]. destruct (Z.leb_spec o 0); [lia|]. unfold fseek_set. rewrite Hf. unfold block_bytes. rewrite <- !app_assoc.
      assert (NX : 0 <= next_off (o + bsize m) k G < pow256 8).
      { change (pow256 8) with (2 ^ 64). destruct (next_off_range k G (o + bsize m) ltac:(lia)) as (A & B). destruct (owns k G); [specialize (A eq_refl); lia|rewrite (B eq_refl); lia]. }
      rewrite fread_at by (auto; subst o; lia). rewrite (app_assoc P). rewrite fread_at.
      2:{ change (pow256 4) with (2 ^ 32). lia. }
      2:{ rewrite app_length, le_enc_length. subst o. lia. }
      rewrite (app_assoc (P ++ _)). rewrite Nat2Z.id.
      destruct (read_runs_ok m ((P ++ le_enc 8 (next_off (o + bsize m) k G)) ++ le_enc 4 (Z.of_nat (length m))) (layout (o + bsize m) G) c (Z.to_nat o + 8 + 4)%nat G1) as (f' & E & F).
      { rewrite !app_length, !le_enc_length. subst o. lia. }
      rewrite E. rewrite add_runs_app. apply IH'; [|lia]. rewrite F, Hf. unfold block_bytes. now rewrite <- !app_assoc.
    + cbn [app]. apply IH'; [reflexivity|lia].
Qed.

Lemma total_blocks G : 12 * Z.of_nat (length G) <= total G.
Proof. induction G as [|[k m] G IH]; cbn [total List.length]; [lia|]. pose proof (bsize_pos m). lia. Qed.

(** Loading cell [k]: its records in the file, added to the records in memory. *)
Lemma load_cell_ok n G t cells k c : 0 < n < 2 ^ 32 -> 0 <= k < n -> holds n G t cells -> t_file t <> None ->
  8 * n + total G < 2 ^ 64 -> blocks_ok G ->
  load_cell t k c = Ok (if k_num (add_runs (set_num_points c 0) (of_cell k G)) =? k_num c then Some (add_runs (set_num_points c 0) (of_cell k G)) else None).
Proof.
  intros Hn Hk (HO & HT) HF HB HG. destruct HT as [(_ & X)|(f & E1 & E2 & E3 & E4)]; [contradiction|]. unfold load_cell. rewrite E1.
  rewrite (Z.mod_small (k * 8)) by lia. unfold fseek_set. rewrite E4. unfold image. pose proof (total_nonneg G) as TN.
  assert (ST : exists a b, table n G = a ++ le_enc 8 (next_off (8 * n) k G) ++ b /\ length a = Z.to_nat (k * 8)).
  { unfold table. rewrite (flat8_split _ k (Z.to_nat n)) by lia. eexists _, _. split; [reflexivity|]. rewrite flat8_length, zseq_length. lia. }
  destruct ST as (a & b & ST & HA). rewrite ST. rewrite <- !app_assoc.
  assert (NX : 0 <= next_off (8 * n) k G < pow256 8).
  { change (pow256 8) with (2 ^ 64). destruct (next_off_range k G (8 * n) ltac:(lia)) as (A & B). destruct (owns k G); [specialize (A eq_refl); lia|rewrite (B eq_refl); lia]. }
  rewrite fread_at by auto.
  pose proof (table_length n G ltac:(lia)) as TL.
  assert (LC : forall fu, (length G <= fu)%nat -> load_chain fu (mkFile (a ++ le_enc 8 (next_off (8 * n) k G) ++ b ++ layout (8 * n) G) (Z.to_nat (k * 8) + 8)) (next_off (8 * n) k G) (set_num_points c 0) = Ok (Some (add_runs (set_num_points c 0) (of_cell k G)))).
  { intros fu Hfu. pose proof (load_chain_ok k G (table n G) (set_num_points c 0) fu (mkFile (a ++ le_enc 8 (next_off (8 * n) k G) ++ b ++ layout (8 * n) G) (Z.to_nat (k * 8) + 8))) as L.
    rewrite TL in L. apply L; auto; try lia. cbn [cf_bytes]. rewrite ST. now rewrite <- !app_assoc. }
  cbn [cf_bytes]. rewrite LC.
  - cbn [obind]. destruct (_ =? _); reflexivity.
  - pose proof (total_blocks G). pose proof (layout_length G (8 * n)). rewrite !app_length. lia.
Qed.

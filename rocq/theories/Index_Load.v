(** Reading back the index header record, and the loop of a query over the VLRs
    of an index. *)
From Coq Require Import ZArith List Bool Lia.
From Coq Require Import ZifyBool ZifyNat.
Import ListNotations.
From Verif Require Import Outcome Bytes CStr Float64 Vlr_Model Bounds_Model Writer_Proofs Chipper_Spec Chipper_Lists Index_Cell Index_Out Index_Query Index_Spec Index_Items Index_Groups Index_Filter.
Local Open Scope Z_scope.
Local Notation length := List.length (only parsing).

(** an index header that its record holds without loss *)
Record ihead_ok (h : ihead) : Prop := {
  io_ver : 0 <= ih_major h < 256 /\ 0 <= ih_minor h < 256;
  io_author : no_nul (ih_author h) /\ lenB (ih_author h) <= 511;
  io_comment : no_nul (ih_comment h) /\ lenB (ih_comment h) <= 511;
  io_date : no_nul (ih_date h) /\ lenB (ih_date h) <= 511;
  io_data : 0 <= ih_data h < 2 ^ 32;
  io_count : 0 <= ih_count h < 2 ^ 32;
  io_cells : 0 <= ih_cx h < 2 ^ 32 /\ 0 <= ih_cy h < 2 ^ 32 /\ 0 <= ih_cz h < 2 ^ 32 }.
(** the index with that header, its ranges computed *)
Definition idx_of (h : ihead) : idx :=
  mkIdx h (f64_sub (ih_maxx h) (ih_minx h)) (f64_sub (ih_maxy h) (ih_miny h)) (f64_sub (ih_maxz h) (ih_minz h)).

Lemma put_string_id s : no_nul s -> lenB s <= 511 -> put_string s = le_enc 2 (lenB s + 1) ++ s ++ [0].
Proof.
  intros N L. unfold put_string. rewrite firstn_all2 by lia. rewrite until_nul_id by exact N. do 2 f_equal. rewrite app_length. cbn [List.length]. lia.
Qed.
Lemma dest_str_ok s r : no_nul s -> dest_str (map Some (s ++ [0]) ++ r) = Ok s.
Proof.
  unfold no_nul. induction s as [|c s IH]; intros N; cbn [app map dest_str]; [reflexivity|].
  destruct (c =? 0) eqn:E; [exfalso; apply N; left; lia|]. rewrite IH by (intros H; apply N; now right). reflexivity.
Qed.
Lemma sits_buf d p a r : sits d p (a ++ r) -> buf_get d (Z.to_nat p) (length a) = Some a.
Proof.
  intros (pre & -> & H). unfold buf_get. rewrite !app_length. replace (Z.to_nat p) with (length pre) by lia.
  replace (length pre + length a <=? length pre + (length a + length r))%nat with true by lia.
  rewrite skipn_app, skipn_all2, Nat.sub_diag by lia. cbn [skipn app]. rewrite firstn_app, Nat.sub_diag, firstn_O, app_nil_r, firstn_all. reflexivity.
Qed.
Lemma get_str_ok b d p s r : no_nul s -> lenB s <= 511 -> 0 <= p < 10000 -> sits d p (put_string s ++ r) ->
  exists b', get_str b d p = Ok (Some (s, b', p + lenB s + 3)) /\ sits d (p + lenB s + 3) r.
Proof.
  intros N L P HS. rewrite put_string_id, <- !app_assoc in HS by assumption. unfold get_str.
  rewrite (sits_get 2 d p _ _ HS) by (change (pow256 2) with 65536; lia).
  apply sits_skip in HS. rewrite le_enc_length in HS. change (p + Z.of_nat 2) with (p + 2) in HS. rewrite app_assoc in HS.
  rewrite (Z.mod_small (p + 2)) by lia.
  replace (Z.to_nat (lenB s + 1)) with (length (s ++ [0])) by (rewrite app_length; cbn [List.length]; lia).
  rewrite (sits_buf d (p + 2) (s ++ [0]) r HS). replace (512 <? lenB s + 1) with false by lia. rewrite dest_str_ok by exact N. cbn [obind].
  rewrite Z.mod_small by lia. eexists. replace (p + 2 + (lenB s + 1)) with (p + lenB s + 3) by lia. split; [reflexivity|].
  apply sits_skip in HS. rewrite app_length in HS. cbn [List.length] in HS. replace (p + lenB s + 3) with (p + 2 + Z.of_nat (length s + 1)) by lia. exact HS.
Qed.

(** the two loops of reads of the same width *)
Lemma doubles_ok d l : forall p r, 0 <= p < 20000 - 8 * lenB l -> sits d p (flat_map (fun x => le_enc 8 (f64_bits x)) l ++ r) ->
  get_doubles d (length l) p = (l, p + 8 * lenB l, true).
Proof.
  induction l as [|x l IH]; intros p r HP HS; cbn [List.length flat_map get_doubles] in *.
  - do 2 f_equal. lia.
  - rewrite <- app_assoc in HS. rewrite (sits_get 8 d p _ _ HS) by apply f64_bits_pow. rewrite f64_of_bits_bits.
    apply sits_skip in HS. rewrite le_enc_length in HS. change (p + Z.of_nat 8) with (p + 8) in HS. rewrite (Z.mod_small (p + 8)) by lia.
    rewrite (IH (p + 8) r); [|lia|exact HS]. do 2 f_equal. lia.
Qed.
Lemma ints_ok d l : Forall (fun v => 0 <= v < 2 ^ 32) l -> forall p r, 0 <= p < 20000 - 4 * lenB l -> sits d p (flat_map (le_enc 4) l ++ r) ->
  get_ints d (length l) p = (l, p + 4 * lenB l, true).
Proof.
  intros HF. induction l as [|x l IH]; intros p r HP HS; cbn [List.length flat_map get_ints] in *.
  - do 2 f_equal. lia.
  - rewrite <- app_assoc in HS. rewrite (sits_get 4 d p _ _ HS) by (change (pow256 4) with (2 ^ 32); exact (Forall_inv HF)).
    apply sits_skip in HS. rewrite le_enc_length in HS. change (p + Z.of_nat 4) with (p + 4) in HS. rewrite (Z.mod_small (p + 4)) by lia.
    rewrite (IH (Forall_inv_tail HF) (p + 4) r); [|lia|exact HS]. do 2 f_equal. lia.
Qed.

Definition ih_doubles (h : ihead) := [ih_minx h; ih_maxx h; ih_miny h; ih_maxy h; ih_minz h; ih_maxz h].
Definition ih_ints (h : ihead) := [ih_data h; ih_count h; ih_cx h; ih_cy h; ih_cz h].
Lemma ihead_bytes_eq h : ihead_bytes h = le_enc 1 (ih_major h) ++ le_enc 1 (ih_minor h) ++
  put_string (ih_author h) ++ put_string (ih_comment h) ++ put_string (ih_date h) ++
  flat_map (fun x => le_enc 8 (f64_bits x)) (ih_doubles h) ++ flat_map (le_enc 4) (ih_ints h) ++ [].
Proof. unfold ihead_bytes, ih_doubles, ih_ints. cbn [flat_map]. rewrite !app_nil_r, <- !app_assoc. reflexivity. Qed.

Lemma load_ok ix h : ihead_ok h -> load_index_vlr ix (head_vlr h) = Ok (idx_of h, true).
Proof.
  intros [(V1 & V2) (A1 & A2) (C1 & C2) (D1 & D2) HD HN (X1 & X2 & X3)]. unfold load_index_vlr. cbn [v_data head_vlr].
  assert (HS : sits (ihead_bytes h) 0 (ihead_bytes h)) by (exists []; now split). rewrite ihead_bytes_eq in HS at 2.
  rewrite (sits_get 1 _ 0 _ _ HS) by (change (pow256 1) with 256; lia). skip_field HS 1%nat.
  rewrite (sits_get 1 _ 1 _ _ HS) by (change (pow256 1) with 256; lia). skip_field HS 1%nat. change (0 + 1 + 1) with 2 in HS.
  destruct (get_str_ok (repeat None 512) _ 2 _ _ A1 A2 ltac:(lia) HS) as (b1 & E1 & S1). rewrite E1. cbn [obind].
  set (p1 := 2 + lenB (ih_author h) + 3) in *. assert (P1 : 0 <= p1 <= 516) by (unfold p1; lia). clearbody p1.
  destruct (get_str_ok b1 _ p1 _ _ C1 C2 ltac:(lia) S1) as (b2 & E2 & S2). rewrite E2. cbn [obind].
  set (p2 := p1 + lenB (ih_comment h) + 3) in *. assert (P2 : 0 <= p2 <= 1030) by (unfold p2; lia). clearbody p2.
  destruct (get_str_ok b2 _ p2 _ _ D1 D2 ltac:(lia) S2) as (b3 & E3 & S3). rewrite E3. cbn [obind]. f_equal. unfold load_numbers.
  set (p3 := p2 + lenB (ih_date h) + 3) in *. assert (P3 : 0 <= p3 <= 1544) by (unfold p3; lia). clearbody p3.
  pose proof (doubles_ok (ihead_bytes h) (ih_doubles h) p3 _ ltac:(cbn [ih_doubles List.length]; lia) S3) as DD. change (length (ih_doubles h)) with 6%nat in DD. rewrite DD.
  apply sits_skip in S3. replace (lenB (flat_map _ (ih_doubles h))) with 48 in S3 by (cbn [ih_doubles flat_map]; rewrite !app_length, !le_enc_length; reflexivity).
  change (8 * Z.of_nat 6) with 48.
  pose proof (ints_ok (ihead_bytes h) (ih_ints h) ltac:(unfold ih_ints; repeat (apply Forall_cons; [assumption|]); apply Forall_nil) (p3 + 48) _ ltac:(cbn [ih_ints List.length]; lia) S3) as II.
  change (length (ih_ints h)) with 5%nat in II. rewrite II.
  unfold ih_doubles, ih_ints, idx_of. cbn [h_major h_minor h_author h_comment h_date h_bounds h_ints nth ih_major ih_minor ih_author ih_comment ih_date ih_minx ih_maxx ih_miny ih_maxy ih_minz ih_maxz ih_data ih_count ih_cx ih_cy ih_cz].
  now destruct h.
Qed.

(** ** The loop over the VLRs *)

Lemma data_user n d : zlist_eqb (vlr_get_user false (data_vlr n d)) liblas_user = true. Proof. reflexivity. Qed.
Lemma head_user h : zlist_eqb (vlr_get_user false (head_vlr h)) liblas_user = true. Proof. reflexivity. Qed.
Lemma group_vlr_id g v r : group_vlrs g (v :: r) -> zlist_eqb (vlr_get_user false v) liblas_user = true /\ v_id v = 43.
Proof. intros H. destruct (group_vlrs_inv g v r H) as [(pad & _ & -> & _)|(_ & -> & _)]; split; reflexivity. Qed.

Lemma data_loop pts ix q gs vs : lenB pts < 2 ^ 31 -> with_counts (ix_h ix) = true -> ih_data (ix_h ix) = 43 -> encodes gs vs ->
  Forall (fun g => Forall (good_cell pts) (g_cells g) /\ head_in g) gs -> forall fuel pre s, (length vs <= fuel)%nat -> fs_it s = None ->
  exists s' i, filter_loop fuel pts (pre ++ vs) ix q (lenB pre) s = Ok (ix, q, s', i) /\ fs_it s' = None /\ fs_res s' = fs_res s ++ flat_map (g_answer pts q) gs.
Proof.
  intros HL HV HD HE. induction HE as [|g vs gs rest HG HE IH]; intros HF fuel pre s HU HI.
  - exists s, (lenB pre). rewrite app_nil_r. destruct fuel; cbn [filter_loop flat_map]; rewrite app_nil_r; replace (lenB pre <=? lenB pre) with true by lia; now repeat split.
  - destruct (group_vlrs_cons g vs HG) as (v & r & ->). destruct fuel as [|fuel]; [cbn [app List.length] in HU; lia|]. cbn [filter_loop].
    replace (lenB (pre ++ (v :: r) ++ rest) <=? lenB pre) with false by (rewrite !app_length; cbn [List.length]; lia).
    rewrite nth_error_app2 by lia. replace (Z.to_nat (lenB pre) - length pre)%nat with 0%nat by lia. cbn [app nth_error].
    destruct (group_vlr_id g v r HG) as (U & V). rewrite U, V, HD. change (43 =? 42) with false. change (43 =? 43) with true. cbv iota.
    destruct (Forall_inv HF) as (GC & GH).
    destruct (group_filter pts ix q pre rest g v r s (lenB pre) HL GC GH HV HG HI eq_refl) as (s1 & dn & E1 & I1 & R1). change ((v :: r) ++ rest) with (v :: r ++ rest) in E1.
    rewrite E1. cbn [obind negb]. rewrite I1. replace (pre ++ v :: r ++ rest) with ((pre ++ v :: r) ++ rest) by now rewrite <- app_assoc.
    replace (lenB pre + lenB r + 1) with (lenB (pre ++ v :: r)) by (rewrite app_length; cbn [List.length]; lia).
    destruct (IH (Forall_inv_tail HF) fuel (pre ++ v :: r) s1) as (s2 & i2 & E2 & I2 & R2); [cbn [app List.length] in HU; rewrite app_length in HU; lia|exact I1|].
    exists s2, i2. split; [exact E2|]. split; [exact I2|]. rewrite R2, R1. cbn [flat_map]. now rewrite app_assoc.
Qed.

(** VLRs that are not part of an index *)
Definition not_index (v : vlr) : bool := negb (zlist_eqb (vlr_get_user false v) liblas_user && ((v_id v =? 42) || (v_id v =? 43))).

Lemma skip_loop pts ix q tail base : forallb not_index base = true -> ih_data (ix_h ix) = 43 -> forall fuel pre s,
  filter_loop (length base + fuel) pts (pre ++ base ++ tail) ix q (lenB pre) s = filter_loop fuel pts (pre ++ base ++ tail) ix q (lenB (pre ++ base)) s.
Proof.
  intros HB HD. induction base as [|v base IH]; intros fuel pre s.
  - cbn [List.length Nat.add]. now rewrite app_nil_r.
  - cbn [forallb] in HB. apply andb_prop in HB. destruct HB as (HV & HB). cbn [List.length Nat.add filter_loop].
    replace (lenB (pre ++ (v :: base) ++ tail) <=? lenB pre) with false by (rewrite !app_length; cbn [List.length]; lia).
    rewrite nth_error_app2 by lia. replace (Z.to_nat (lenB pre) - length pre)%nat with 0%nat by lia. cbn [app nth_error].
    assert (K : forall l, pre ++ v :: l = (pre ++ [v]) ++ l) by (intros l; now rewrite <- app_assoc).
    assert (LP : lenB pre + 1 = lenB (pre ++ [v])) by (rewrite app_length; cbn [List.length]; lia).
    unfold not_index in HV. rewrite HD. destruct (zlist_eqb (vlr_get_user false v) liblas_user).
    + cbn [andb] in HV. destruct (v_id v =? 42); [discriminate|]. destruct (v_id v =? 43); [discriminate|]. rewrite (K (base ++ tail)), (K base), LP. apply (IH HB).
    + rewrite (K (base ++ tail)), (K base), LP. apply (IH HB).
Qed.

(** ** Cells a group skipped by its extent does not hide *)

Lemma runs_items_off pts q x y z m : forall i, In i (runs_items pts q x y z false m) -> snd i = false.
Proof.
  intros i H. unfold runs_items in H. apply in_flat_map in H. destruct H as (r & _ & H). unfold run_items in H.
  apply in_map_iff in H. destruct H as (k & <- & _). reflexivity.
Qed.
Lemma cell_items_off pts q x y c : cell_interesting q x y = false -> forall i, In i (cell_items pts q x y c) -> snd i = false.
Proof.
  intros H i. unfold cell_items. rewrite H. cbn [andb]. destruct (k_zsub c) as [|z zs]; [destruct (k_xysub c) as [|w ws]|].
  - apply runs_items_off.
  - unfold subs_items. intros K. apply in_flat_map in K. destruct K as (s & _ & K). eapply runs_items_off. exact K.
  - unfold subs_items. intros K. apply in_flat_map in K. destruct K as (s & _ & K). eapply runs_items_off. exact K.
Qed.
Lemma filter_none {A} (f : A -> bool) l : (forall a, In a l -> f a = false) -> filter f l = [].
Proof. induction l as [|a l IH]; intros H; [reflexivity|]. cbn [filter]. rewrite (H a) by now left. apply IH. intros b Hb. apply H. now right. Qed.
Lemma conform_off pts q c : cell_interesting q (fst (fst c)) (snd (fst c)) = false -> conform pts q c = [].
Proof. intros H. unfold conform. rewrite filter_none; [reflexivity|]. now apply cell_items_off. Qed.

Lemma hidden_none pts q g : head_in g -> Forall (good_cell pts) (g_cells g) -> span_ok g ->
  vlr_interesting q (g_x0 g) (g_y0 g) (g_x1 g) (g_y1 g) = false -> flat_map (conform pts q) (g_cells g) = [].
Proof.
  intros (H1 & H2 & H3 & H4 & _) HC HS HV. unfold vlr_interesting in HV. rewrite !to_signed_small in HV by lia.
  unfold span_ok in HS. rewrite Forall_forall in HC, HS. induction (g_cells g) as [|c l IH]; [reflexivity|]. cbn [flat_map].
  rewrite IH by (intros d Hd; first [now apply HC; right | now apply HS; right]). rewrite app_nil_r.
  specialize (HC c (or_introl eq_refl)). specialize (HS c (or_introl eq_refl)). destruct HC as (_ & C1 & C2). destruct c as ((x, y), c). cbn [fst snd] in *.
  apply conform_off. cbn [fst snd]. unfold cell_interesting, in_border. rewrite !to_signed_small by lia. unfold lexle in HS. cbn [fst snd] in HS.
  destruct (ax_off (q_x q)) eqn:OX, (ax_off (q_y q)) eqn:OY; cbn [orb andb] in *; lia.
Qed.

(** ** The whole query *)

Definition same_box (q q' : query) : Prop := filter_bounds q' = filter_bounds q.
Lemma axis_cells_r a lo hi a' : axis_cells a lo hi = Ok a' -> ax_r a' = ax_r a /\ ax_off a' = ax_off a.
Proof.
  unfold axis_cells. destruct (f64_to_int32 (f64_ceil lo)); cbn [obind]; try discriminate. destruct (f64_to_int32 (f64_sub (f64_floor hi) f64_one)); cbn [obind]; try discriminate.
  destruct (f64_to_int32 (f64_floor lo)); cbn [obind]; try discriminate. destruct (f64_to_int32 (f64_sub (f64_ceil hi) f64_one)); cbn [obind]; try discriminate.
  intros E. inversion E. now split.
Qed.

Lemma set_bounds_off ix q q' : set_cell_bounds ix q = Ok q' -> ax_off (q_x q') = ax_off (q_x q) /\ ax_off (q_y q') = ax_off (q_y q) /\ ax_off (q_z q') = ax_off (q_z q) /\ filter_bounds q' = filter_bounds q.
Proof.
  unfold set_cell_bounds. intros H. apply obind_ok in H. destruct H as (ax & HX & H). apply obind_ok in H. destruct H as (ay & HY & H). apply obind_ok in H. destruct H as (az & HZ & H).
  assert (Z : ax_r az = ax_r (q_z q) /\ ax_off az = ax_off (q_z q)) by (destruct (_ && _); now apply axis_cells_r in HZ).
  apply axis_cells_r in HX, HY. apply (f_equal (fun o => match o with Ok x => x | _ => q end)) in H. subst q'. unfold filter_bounds. cbn [q_x q_y q_z]. destruct HX as (-> & ->), HY as (-> & ->), Z as (-> & ->). repeat split.
Qed.

Theorem filter_written pts base h cells ix q q' cur : lenB pts < 2 ^ 31 -> forallb not_index base = true -> ih_data (ix_h ix) = 43 ->
  ihead_ok h -> ih_data h = 43 -> with_counts h = true ->
  Forall fits32 cells -> Forall (good_cell pts) cells -> (in_order cells /\ no_hidden cells) \/ (ax_off (q_x q) = true /\ ax_off (q_y q) = true) ->
  set_cell_bounds (idx_of h) q = Ok q' -> bounds_intersects (index_bounds h) (filter_bounds q') = Ok true ->
  exists vlrs s, write_index base h cells = Ok vlrs /\ index_filter pts vlrs ix q cur None = Ok (idx_of h, q', s) /\
    fs_res s = flat_map (conform pts q') (filter nonempty cells).
Proof.
  intros HL HB HI HO HD HV HF HG HOrd HQ HM.
  destruct (write_index_ok base h cells HF) as (gs & vs & EW & EN & EC & GF & GS0).
  assert (GS : Forall span_ok gs \/ (ax_off (q_x q') = true /\ ax_off (q_y q') = true)).
  { destruct HOrd as [(H1 & H2)|H1]; [left; now apply GS0|right]. destruct (set_bounds_off _ _ _ HQ) as (-> & -> & _). exact H1. }
  clear GS0 HOrd.
  exists (base ++ [head_vlr h] ++ vs). 
  assert (GA : Forall (fun g => Forall (good_cell pts) (g_cells g) /\ head_in g) gs).
  { clear GS. rewrite Forall_forall in *. intros g Hg. destruct (GF g Hg) as (G0 & G1 & G2 & G3).
    assert (IN : forall p, In p (map fst cells) -> 0 <= fst p < 2 ^ 31 /\ 0 <= snd p < 2 ^ 31).
    { intros p Hp. apply in_map_iff in Hp. destruct Hp as (c & <- & Hc). destruct (HG c Hc) as (_ & K). exact K. }
    split.
    - apply Forall_forall. intros c Hc. apply HG. assert (K : In c (filter nonempty cells)) by (rewrite <- EC; unfold cells_of; apply in_flat_map; eauto). apply filter_In in K. tauto.
    - apply IN in G1. apply IN in G2. cbn [fst snd] in G1, G2. unfold head_in. tauto. }
  assert (ANS : flat_map (g_answer pts q') gs = flat_map (conform pts q') (filter nonempty cells)).
  { rewrite <- EC. unfold cells_of. clear - GA GS. induction gs as [|g gs IH]; [reflexivity|]. cbn [flat_map]. rewrite flat_map_app. f_equal.
    - unfold g_answer. destruct (vlr_interesting _ _ _ _ _) eqn:E; [reflexivity|]. destruct (Forall_inv GA) as (A1 & A2). symmetry. destruct GS as [GS|(O1 & O2)].
      + apply (hidden_none pts q' g A2 A1 (Forall_inv GS) E).
      + unfold vlr_interesting in E. rewrite O1, O2 in E. discriminate E.
    - apply IH; [|exact (Forall_inv_tail GA)]. destruct GS as [GS|GS]; [left; exact (Forall_inv_tail GS)|now right]. }
  unfold index_filter.
  set (vlrs := base ++ [head_vlr h] ++ vs). set (s0 := mkF [] cur None).
  assert (LV : S (length vlrs) = (length base + S (S (length vs)))%nat) by (unfold vlrs; rewrite !app_length; cbn [List.length]; lia). rewrite LV.
  pose proof (skip_loop pts ix q ([head_vlr h] ++ vs) base HB HI (S (S (length vs))) [] s0) as SK. change ([] ++ base) with base in SK. change ([] ++ base ++ [head_vlr h] ++ vs) with vlrs in SK.
  change (lenB (@nil vlr)) with 0 in SK. rewrite SK. clear SK.
  set (LP := filter_loop (S (S (length vs))) pts vlrs ix q (lenB base) s0).
  assert (E : LP = filter_loop (S (length vs)) pts ((base ++ [head_vlr h]) ++ vs) (idx_of h) q' (lenB (base ++ [head_vlr h])) s0).
  { unfold LP. cbn [filter_loop]. replace (lenB vlrs <=? lenB base) with false by (unfold vlrs; rewrite !app_length; cbn [List.length]; lia).
    unfold vlrs at 1. rewrite nth_error_app2 by lia. replace (Z.to_nat (lenB base) - length base)%nat with 0%nat by lia. cbn [app nth_error].
    rewrite head_user. change (v_id (head_vlr h) =? 42) with true. cbv iota. rewrite (load_ok ix h HO). cbn [obind negb]. rewrite HQ. cbn [obind].
    change (index_bounds (ix_h (idx_of h))) with (index_bounds h). rewrite HM. cbn [obind negb fs_it s0].
    replace (lenB base + 1) with (lenB (base ++ [head_vlr h])) by (rewrite app_length; cbn [List.length]; lia).
    replace vlrs with ((base ++ [head_vlr h]) ++ vs) by (unfold vlrs; now rewrite <- app_assoc). reflexivity. }
  rewrite E. clear E LP.
  destruct (data_loop pts (idx_of h) q' gs vs HL HV HD EN GA (S (length vs)) (base ++ [head_vlr h]) s0 ltac:(lia) eq_refl) as (s1 & i1 & E1 & I1 & R1).
  rewrite E1. cbn [obind]. eexists. split; [exact EW|]. split; [reflexivity|]. unfold with_it. cbn [fs_res]. rewrite R1. exact ANS.
Qed.

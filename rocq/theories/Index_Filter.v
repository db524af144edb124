(** The answer of a filter query (without an iterator) over the VLRs of an index. *)
From Coq Require Import ZArith List Bool Lia.
From Coq Require Import ZifyBool ZifyNat.
Import ListNotations.
From Verif Require Import Outcome Bytes CStr Float64 Vlr_Model Bounds_Model Chipper_Spec Chipper_Lists Index_Cell Index_Out Index_Query Index_Spec Index_Items Index_Groups.
Local Open Scope Z_scope.
Local Notation length := List.length (only parsing).

(** the numbers of the conforming points of a cell *)
Definition conform (pts : list coords) (q : query) (c : placed_cell) : list Z :=
  map fst (filter snd (cell_items pts q (fst (fst c)) (snd (fst c)) (snd c))).
(** a cell that the writer can encode and the query can read back *)
Definition good_cell (pts : list coords) (c : placed_cell) : Prop :=
  cell_ok pts (snd c) /\ 0 <= fst (fst c) < 2 ^ 31 /\ 0 <= snd (fst c) < 2 ^ 31.

Lemma walk_none l : forall sc r, 0 <= sc -> walk 0 l sc (r, None) = (sc + lenB l, (r ++ map fst (filter snd l), None)).
Proof.
  induction l as [|(id, g) l IH]; intros sc r H; cbn [walk].
  - cbn [List.length filter map]. rewrite app_nil_r. f_equal. lia.
  - replace (0 <? sc + 1) with true by lia. unfold a_it, a_push, a_full. destruct g; cbn [andb fst snd filter map]; rewrite IH by lia.
    + f_equal; [cbn [List.length]; lia|]. now rewrite <- app_assoc.
    + f_equal. cbn [List.length]. lia.
Qed.

Lemma scan_cells_none pts q d cells : lenB pts < 2 ^ 31 -> Forall (good_cell pts) cells -> forall fuel p sc s pad drs,
  (length cells <= fuel)%nat -> 0 <= sc -> fs_it s = None -> sits d p (flat_map pc_bytes cells ++ pad) -> drs = p + lenB (flat_map pc_bytes cells) ->
  exists v, scan_cells fuel pts q true d drs 0 (mkV p sc s) = Ok (v, true) /\ fs_it (vs_s v) = None /\ sc <= vs_n v /\
    fs_res (vs_s v) = fs_res s ++ flat_map (conform pts q) cells.
Proof.
  intros HL HC. induction cells as [|((x, y), c) cells IH]; intros fuel p sc s pad drs HF H0 HI HS ->.
  - cbn [flat_map List.length]. replace (scan_cells _ _ _ _ _ _ _ _) with (Ok (mkV p sc s, true)).
    + eexists. split; [reflexivity|]. cbn [vs_s vs_n]. split; [exact HI|]. split; [lia|]. now rewrite app_nil_r.
    + destruct fuel; cbn [scan_cells vs_pos]; replace (p + 4 <? p + Z.of_nat 0) with false by lia; reflexivity.
  - destruct fuel as [|fuel]; [cbn [List.length] in HF; lia|]. cbn [scan_cells vs_pos flat_map]. cbn [flat_map] in HS. rewrite <- app_assoc in HS.
    pose proof (pc_bytes_length (x, y, c)) as PL. rewrite app_length.
    replace (p + 4 <? p + Z.of_nat (length (pc_bytes (x, y, c)) + length (flat_map pc_bytes cells))) with true by lia.
    destruct (Forall_inv HC) as (C1 & C2 & C3). cbn [fst snd] in C1, C2, C3.
    assert (NF : full s = false) by (unfold full; now rewrite HI).
    destruct (scan_cell_walk pts q d 0 x y c HL C1 ltac:(lia) ltac:(lia) p sc s _ NF HS) as (v & E & EW & EP). rewrite E. cbn [obind negb].
    assert (EA : a_it (abs s) (at_cell p) = (fs_res s, None)) by (unfold a_it, abs; cbn [fst snd]; now rewrite HI). rewrite EA in EW.
    rewrite walk_none in EW by exact H0. apply pair_equal_spec in EW. destruct EW as (EN & EW). unfold abs in EW. apply pair_equal_spec in EW. destruct EW as (ER & EI).
    assert (NV : full (vs_s v) = false) by (unfold full; now rewrite EI). rewrite NV. destruct v as [vp vn vs]. cbn [vs_pos vs_n vs_s] in *.
    specialize (EP NV). change (cell_bytes x y c) with (pc_bytes (x, y, c)) in EP. subst vp.
    destruct (IH (Forall_inv_tail HC) fuel (p + lenB (pc_bytes (x, y, c))) vn vs pad (p + lenB (pc_bytes (x, y, c)) + lenB (flat_map pc_bytes cells))) as (v2 & E2 & I2 & N2 & R2).
    + cbn [List.length] in HF. lia.
    + lia.
    + exact EI.
    + apply (sits_skip d p (pc_bytes (x, y, c))). exact HS.
    + reflexivity.
    + replace (p + Z.of_nat (length (pc_bytes (x, y, c)) + length (flat_map pc_bytes cells))) with (p + lenB (pc_bytes (x, y, c)) + lenB (flat_map pc_bytes cells)) by lia.
      exists v2. split; [exact E2|]. split; [exact I2|]. split; [lia|]. rewrite R2, ER, <- app_assoc. reflexivity.
Qed.

(** ** Reading the continuation *)

Lemma data_vlr_size n d : 0 <= n <= vlr_max -> v_size (data_vlr n d) = n.
Proof. intros H. cbn [v_size data_vlr]. unfold vlr_max in H. apply Z.mod_small. lia. Qed.

Lemma gather_ok vs : forall rest pre post comp fuel i drs, conts rest vs -> lenB pre = i + 1 -> 0 <= i -> lenB comp + lenB rest <= drs -> (length vs <= fuel)%nat ->
  gather fuel (pre ++ vs ++ post) drs i comp (lenB rest) = Ok (i + lenB vs, Some (comp ++ rest)).
Proof.
  induction vs as [|v vs IH]; intros rest pre post comp fuel i drs HC HP HI HD HF; inversion HC as [|rest' n d vs' N1 N2 N3 N4 N5 N6]; subst.
  - destruct fuel; cbn [gather List.length Z.of_nat Z.leb]; rewrite app_nil_r, Z.add_0_r; reflexivity.
  - destruct fuel as [|fuel]; [cbn [List.length] in HF; lia|]. cbn [gather]. replace (lenB rest <=? 0) with false by lia.
    rewrite nth_error_app2 by lia. replace (Z.to_nat (i + 1) - length pre)%nat with 0%nat by lia. cbn [app nth_error].
    rewrite data_vlr_size by lia. cbn [v_data data_vlr]. replace (lenB d <? n) with false by lia. replace (drs <? lenB comp + n) with false by lia.
    replace (n <=? lenB rest) with true by lia. rewrite N5.
    set (a := firstn (Z.to_nat n) rest) in *. set (b := skipn (Z.to_nat n) rest) in *. assert (AB : rest = a ++ b) by (unfold a, b; now rewrite firstn_skipn).
    assert (LA : lenB a = n) by (unfold a; rewrite firstn_length; lia). clearbody a b. subst rest. rewrite app_length in *.
    replace (pre ++ data_vlr n d :: vs ++ post) with ((pre ++ [data_vlr n d]) ++ vs ++ post) by (rewrite <- app_assoc; reflexivity).
    replace (Z.of_nat (length a + length b) - n) with (lenB b) by lia.
    rewrite (IH b); [|exact N6|rewrite app_length; cbn [List.length]; lia|lia|rewrite app_length; lia|cbn [List.length] in HF; lia].
    rewrite <- app_assoc. do 2 f_equal. cbn [List.length]. lia.
Qed.

(** ** One group *)

Definition head_in (g : group) : Prop :=
  0 <= g_x0 g < 2 ^ 31 /\ 0 <= g_y0 g < 2 ^ 31 /\ 0 <= g_x1 g < 2 ^ 31 /\ 0 <= g_y1 g < 2 ^ 31 /\ g_size g < 2 ^ 32.

Lemma head_get g tail : head_in g ->
  let comp := g_head g ++ tail in
  get_n 4 comp 0 = Some (g_x0 g) /\ get_n 4 comp 4 = Some (g_y0 g) /\ get_n 4 comp 8 = Some (g_x1 g) /\ get_n 4 comp 12 = Some (g_y1 g) /\
  get_n 4 comp 16 = Some (g_size g) /\ get_n 4 comp 20 = Some (g_pts g mod 2 ^ 32).
Proof.
  intros (H1 & H2 & H3 & H4 & H5) comp.
  assert (HS : sits comp 0 (le_enc 4 (g_x0 g) ++ le_enc 4 (g_y0 g) ++ le_enc 4 (g_x1 g) ++ le_enc 4 (g_y1 g) ++ le_enc 4 (g_size g) ++ le_enc 4 (g_pts g) ++ tail)).
  { exists []. split; [|reflexivity]. unfold comp, g_head, g_head6. now rewrite <- !app_assoc. }
  assert (SZ : 0 <= g_size g) by (unfold g_size; lia).
  split; [apply (sits_get 4 _ _ _ _ HS); change (pow256 4) with (2 ^ 32); lia|]. skip_field HS 4%nat.
  split; [apply (sits_get 4 _ _ _ _ HS); change (pow256 4) with (2 ^ 32); lia|]. skip_field HS 4%nat.
  split; [apply (sits_get 4 _ _ _ _ HS); change (pow256 4) with (2 ^ 32); lia|]. skip_field HS 4%nat.
  split; [apply (sits_get 4 _ _ _ _ HS); change (pow256 4) with (2 ^ 32); lia|]. skip_field HS 4%nat.
  split; [apply (sits_get 4 _ _ _ _ HS); change (pow256 4) with (2 ^ 32); lia|]. skip_field HS 4%nat.
  apply (sits_get' 4 _ _ _ _ HS).
Qed.

(** the version of the index says that counts of points are stored *)
Definition with_counts (h : ihead) : bool := (1 <? ih_major h) || (1 <=? ih_minor h).
(** what a group contributes *)
Definition g_answer (pts : list coords) (q : query) (g : group) : list Z :=
  if vlr_interesting q (g_x0 g) (g_y0 g) (g_x1 g) (g_y1 g) then flat_map (conform pts q) (g_cells g) else [].

Lemma group_vlrs_inv g v r : group_vlrs g (v :: r) ->
  (exists pad, g_size g + lenB pad <= vlr_max /\ v = data_vlr (g_size g + lenB pad) (g_data g ++ pad) /\ r = []) \/
  (vlr_max < g_size g /\ v = data_vlr vlr_max (firstn (Z.to_nat vlr_max) (g_data g)) /\ conts (skipn (Z.to_nat vlr_max) (g_data g)) r).
Proof.
  intros H. set (P := fun vs => match vs with [] => True | v :: r =>
    (exists pad, g_size g + lenB pad <= vlr_max /\ v = data_vlr (g_size g + lenB pad) (g_data g ++ pad) /\ r = []) \/
    (vlr_max < g_size g /\ v = data_vlr vlr_max (firstn (Z.to_nat vlr_max) (g_data g)) /\ conts (skipn (Z.to_nat vlr_max) (g_data g)) r) end).
  change (P (v :: r)). destruct H as [pad HS|vs HB HT]; unfold P.
  - left. exists pad. split; [exact HS|]. split; reflexivity.
  - right. split; [exact HB|]. split; [reflexivity|exact HT].
Qed.
Lemma group_vlrs_cons g vs : group_vlrs g vs -> exists v r, vs = v :: r.
Proof. intros H. destruct H; eauto. Qed.

Lemma cells_count g : (length (g_cells g) <= length (g_bytes g))%nat.
Proof.
  unfold g_bytes. induction (g_cells g) as [|c l IH]; cbn [flat_map List.length]; [lia|]. rewrite app_length. pose proof (pc_bytes_length c). lia.
Qed.

Lemma comp_scan pts q g pad s : lenB pts < 2 ^ 31 -> Forall (good_cell pts) (g_cells g) -> fs_it s = None -> 
  exists v, scan_cells (S (length (g_data g ++ pad))) pts q true (g_data g ++ pad) (g_size g) 0 (mkV 24 0 s) = Ok (v, true) /\ fs_it (vs_s v) = None /\ 0 <= vs_n v /\
    fs_res (vs_s v) = fs_res s ++ flat_map (conform pts q) (g_cells g).
Proof.
  intros HL HC HI. apply (scan_cells_none pts q _ (g_cells g) HL HC _ 24 0 s pad).
  - unfold g_data. rewrite !app_length. pose proof (cells_count g). lia.
  - lia.
  - exact HI.
  - exists (g_head g). split; [unfold g_data; now rewrite <- app_assoc|apply head6_length].
  - reflexivity.
Qed.

Lemma group_filter pts ix q pre post g v r s i : lenB pts < 2 ^ 31 -> Forall (good_cell pts) (g_cells g) -> head_in g -> with_counts (ix_h ix) = true ->
  group_vlrs g (v :: r) -> fs_it s = None -> lenB pre = i ->
  exists s' dn, filter_one_vlr pts ix q (pre ++ (v :: r) ++ post) i v s = Ok (i + lenB r, s', true, dn) /\ fs_it s' = None /\ fs_res s' = fs_res s ++ g_answer pts q g.
Proof.
  intros HL HC HH HV HG HI HP. unfold filter_one_vlr, g_answer. change ((1 <? ih_major (ix_h ix)) || (1 <=? ih_minor (ix_h ix))) with (with_counts (ix_h ix)). rewrite HV.
  pose proof (g_data_length g) as LG. assert (SZ : 24 <= g_size g) by (unfold g_size; lia).
  assert (FIN : forall (i2 : Z) (pad : list Z), exists s' dn,
    (if vlr_interesting q (g_x0 g) (g_y0 g) (g_x1 g) (g_y1 g) then
              let '(pos, ignore, vpts) := match fs_it s with
                                          | Some t => if 24 <=? it_pos t then (it_pos t, it_cell t, it_vpts t) else (24, 0, 0)
                                          | None => (24, 0, 0)
                                          end in
              let! (v, ok) := scan_cells (S (length (g_data g ++ pad))) pts q true (g_data g ++ pad) (g_size g) ignore (mkV pos 0 s) in
              let s := vs_s v in
              if negb ok then Ok (i2, s, false, false)
              else if ignore <=? vs_n v then
                let vpts := vpts + (vs_n v - ignore) in
                Ok (i2, with_it s (fun t => mkIter (it_chunk t) (it_adv t) (it_vlr t) (it_pos t) (it_total t + (vs_n v - ignore)) (it_cell t) vpts (it_found t)),
                    true, g_pts g mod 2 ^ 32 <=? vpts)
              else Ok (i2, s, true, false)
            else
              Ok (i2, with_it s (fun t => mkIter (it_chunk t) (it_adv t) (it_vlr t) (it_pos t) (it_total t + g_pts g mod 2 ^ 32) (it_cell t) (it_vpts t) (it_found t)),
                  true, match fs_it s with Some _ => true | None => false end)) = Ok (i2, s', true, dn) /\ fs_it s' = None /\
    fs_res s' = fs_res s ++ (if vlr_interesting q (g_x0 g) (g_y0 g) (g_x1 g) (g_y1 g) then flat_map (conform pts q) (g_cells g) else [])).
  { intros i2 pad. destruct (vlr_interesting q _ _ _ _).
    - rewrite HI. destruct (comp_scan pts q g pad s HL HC HI) as (v2 & E & I2 & N2 & R2). rewrite E. cbn [obind negb].
      replace (0 <=? vs_n v2) with true by lia. eexists _, _. split; [reflexivity|]. unfold with_it. cbn [fs_it fs_res]. rewrite I2. split; [reflexivity|exact R2].
    - eexists _, _. split; [reflexivity|]. unfold with_it. cbn [fs_it fs_res]. rewrite HI. split; [reflexivity|]. now rewrite app_nil_r. }
  destruct (group_vlrs_inv g v r HG) as [(pad & HS & -> & ->)|(HB & -> & HT)].
  - rewrite data_vlr_size by lia. replace (g_size g + lenB pad =? 0) with false by lia. cbn [v_data data_vlr]. 
    assert (LD : lenB (g_data g ++ pad) = g_size g + lenB pad) by (rewrite app_length; lia). rewrite LD.
    replace (g_size g + lenB pad <? g_size g + lenB pad) with false by lia.
    rewrite (firstn_all2 (n := Z.to_nat (g_size g + lenB pad)) (g_data g ++ pad)) by lia.
    destruct (head_get g (g_bytes g ++ pad) HH) as (G0 & G1 & G2 & G3 & G4 & G5). rewrite app_assoc in G0, G1, G2, G3, G4, G5. fold (g_data g) in G0, G1, G2, G3, G4, G5.
    rewrite G0, G1, G2, G3, G4, G5. replace (g_size g + lenB pad <? g_size g) with false by lia. cbn [obind].
    cbn [List.length]. rewrite Z.add_0_r. apply FIN.
  - rewrite data_vlr_size by (unfold vlr_max; lia). change (vlr_max =? 0) with false. cbv iota. cbn [v_data data_vlr].
    assert (L1 : lenB (firstn (Z.to_nat vlr_max) (g_data g)) = vlr_max) by (rewrite firstn_length; unfold vlr_max in *; lia). rewrite L1.
    change (vlr_max <? vlr_max) with false. cbv iota. rewrite (firstn_all2 (n := Z.to_nat vlr_max) (firstn _ _)) by lia.
    assert (DD : firstn (Z.to_nat vlr_max) (g_data g) = g_head g ++ firstn (Z.to_nat (vlr_max - 24)) (g_bytes g)).
    { unfold g_data. rewrite firstn_app. pose proof (head6_length (g_x0 g) (g_y0 g) (g_x1 g) (g_y1 g) (g_size g) (g_pts g)) as LH. fold (g_head g) in LH.
      rewrite firstn_all2 by (unfold vlr_max; lia). f_equal. }
    destruct (head_get g (firstn (Z.to_nat (vlr_max - 24)) (g_bytes g)) HH) as (G0 & G1 & G2 & G3 & G4 & G5). rewrite <- DD in G0, G1, G2, G3, G4, G5.
    rewrite G0, G1, G2, G3, G4, G5. replace (vlr_max <? g_size g) with true by lia.
    set (rest := skipn (Z.to_nat vlr_max) (g_data g)) in *. assert (LR : lenB rest = g_size g - vlr_max) by (unfold rest; rewrite skipn_length; unfold vlr_max in *; lia).
    rewrite <- LR. set (v0 := data_vlr vlr_max (firstn (Z.to_nat vlr_max) (g_data g))).
    replace (pre ++ (v0 :: r) ++ post) with ((pre ++ [v0]) ++ r ++ post) by (rewrite <- app_assoc; reflexivity).
    rewrite (gather_ok r rest (pre ++ [v0]) post _ _ i (g_size g) HT); [|rewrite app_length; cbn [List.length]; lia|lia|rewrite L1, LR; lia|rewrite !app_length; cbn [List.length]; lia].
    cbn [obind]. unfold rest. rewrite firstn_skipn. pose proof (FIN (i + lenB r) []) as X. rewrite app_nil_r in X. exact X.
Qed.

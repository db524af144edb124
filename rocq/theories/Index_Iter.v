(** The index iterator: one call of Filter with an iterator goes through the points
    of the index from where the last one stopped. *)
From Coq Require Import ZArith List Bool Lia.
From Coq Require Import ZifyBool ZifyNat.
Import ListNotations.
From Verif Require Import Outcome Bytes CStr Float64 Vlr_Model Bounds_Model Chipper_Spec Chipper_Lists Index_Cell Index_Out Index_Query Index_Spec Index_Items Index_Groups Index_Filter Index_Load.
Local Open Scope Z_scope.
Local Notation length := List.length (only parsing).

Definition conf (l : list item) : list Z := map fst (filter snd l).
Lemma conf_app a b : conf (a ++ b) = conf a ++ conf b. Proof. unfold conf. now rewrite filter_app, map_app. Qed.
Lemma conf_le a : lenB (conf a) <= lenB a.
Proof. unfold conf. rewrite map_length. induction a as [|p a IH]; cbn [filter List.length]; [lia|]. destruct (snd p); cbn [List.length]; lia. Qed.

(** the iterator after [n] more points of the cell, [k] of them conforming *)
Definition step_it (t : iter) (n k : Z) : iter :=
  mkIter (it_chunk t) (Z.max 0 (it_adv t - k)) (it_vlr t) (it_pos t) (it_total t) (it_cell t + n) (it_vpts t) (it_found t + k).

Lemma skipn_one {A} (n : nat) (a : A) : skipn n [a] = if (n =? 0)%nat then [a] else [].
Proof. destruct n as [|n]; [reflexivity|]. now destruct n. Qed.

Lemma walk_iter l : forall ig sc res t, 0 <= it_adv t -> lenB res < it_chunk t -> exists m res', (m <= length l)%nat /\
  walk ig l sc (res, Some t) = (sc + Z.of_nat m, (res', Some (step_it t (Z.of_nat m) (lenB (conf (skipn (Z.to_nat (ig - sc)) (firstn m l))))))) /\
  res' = res ++ skipn (Z.to_nat (it_adv t - 1)) (conf (skipn (Z.to_nat (ig - sc)) (firstn m l))) /\
  lenB res' <= it_chunk t /\ (lenB res' < it_chunk t -> m = length l).
Proof.
  induction l as [|(id, g) l IH]; intros ig sc res t HA HR; cbn [walk].
  - exists 0%nat, res. cbn [List.length firstn]. rewrite skipn_nil. cbn [conf filter map List.length]. rewrite skipn_nil, app_nil_r.
    split; [lia|]. split; [|repeat split; lia]. f_equal; [lia|]. f_equal. f_equal. destruct t as [a1 a2 a3 a4 a5 a6 a7 a8]. unfold step_it. cbn [it_chunk it_adv it_vlr it_pos it_total it_cell it_vpts it_found] in *. f_equal; lia.
  - unfold a_it. cbn [fst snd]. destruct ((ig <? sc + 1) && g) eqn:B.
    + apply andb_prop in B. destruct B as (B1 & ->). unfold a_push, found_one. cbn [fst snd it_adv it_chunk it_found add_cell it_vlr it_pos it_total it_cell it_vpts].
      set (adv := if it_adv t =? 0 then 0 else it_adv t - 1). set (res1 := if negb (adv =? 0) then res else res ++ [id]).
      set (t1 := mkIter _ _ _ _ _ _ _ _). assert (EA : adv = Z.max 0 (it_adv t - 1)) by (unfold adv; destruct (Z.eqb_spec (it_adv t) 0); lia).
      assert (E1 : res1 = res ++ skipn (Z.to_nat (it_adv t - 1)) [id]).
      { unfold res1. rewrite skipn_one. destruct (Z.eqb_spec adv 0) as [E|E]; cbn [negb].
        - now replace (Z.to_nat (it_adv t - 1) =? 0)%nat with true by lia.
        - replace (Z.to_nat (it_adv t - 1) =? 0)%nat with false by lia. now rewrite app_nil_r. }
      assert (L1 : lenB res1 <= it_chunk t) by (unfold res1; destruct (negb _); rewrite ?app_length; cbn [List.length]; lia).
      unfold a_full. cbn [fst snd]. change (it_chunk t1) with (it_chunk t). destruct (Z.leb_spec (it_chunk t) (lenB res1)) as [F|F].
      * exists 1%nat, res1. cbn [List.length firstn]. replace (Z.to_nat (ig - sc)) with 0%nat by lia. cbn [skipn]. change (conf [(id, true)]) with [id].
        split; [lia|]. split; [|split; [exact E1|split; [exact L1|lia]]]. f_equal. f_equal. f_equal. unfold t1, step_it. rewrite EA. f_equal.
      * destruct (IH ig (sc + 1) res1 t1 ltac:(unfold t1; cbn [it_adv]; lia) F) as (m & res' & M1 & M2 & M3 & M4 & M5). exists (S m), res'. cbn [List.length firstn].
        assert (Z0 : Z.to_nat (ig - sc) = 0%nat) by lia. assert (Z1 : Z.to_nat (ig - (sc + 1)) = 0%nat) by lia. rewrite Z0. rewrite Z1 in M2, M3. cbn [skipn] in *.
        change (conf ((id, true) :: firstn m l)) with ([id] ++ conf (firstn m l)). set (c := conf (firstn m l)) in *.
        split; [lia|]. split; [|split; [|split; [exact M4|intros K; rewrite (M5 K); reflexivity]]].
        -- rewrite M2. f_equal; [lia|]. f_equal. f_equal. unfold step_it, t1. cbn [it_chunk it_adv it_vlr it_pos it_total it_cell it_vpts it_found add_cell]. rewrite app_length. cbn [List.length]. f_equal; lia.
        -- rewrite M3, E1, <- app_assoc. f_equal. unfold t1. cbn [it_adv]. rewrite skipn_app. cbn [List.length]. do 2 f_equal. lia.
    + unfold a_full. cbn [fst snd]. change (it_chunk (add_cell 1 t)) with (it_chunk t). replace (it_chunk t <=? lenB res) with false by lia.
      destruct (IH ig (sc + 1) res (add_cell 1 t) HA HR) as (m & res' & M1 & M2 & M3 & M4 & M5). exists (S m), res'. cbn [List.length firstn].
      assert (EC : conf (skipn (Z.to_nat (ig - sc)) ((id, g) :: firstn m l)) = conf (skipn (Z.to_nat (ig - (sc + 1))) (firstn m l))).
      { destruct (Z.ltb_spec ig (sc + 1)) as [K|K].
        - cbn [andb] in B. subst g. replace (Z.to_nat (ig - sc)) with 0%nat by lia. replace (Z.to_nat (ig - (sc + 1))) with 0%nat by lia. reflexivity.
        - replace (Z.to_nat (ig - sc)) with (S (Z.to_nat (ig - (sc + 1)))) by lia. reflexivity. }
      rewrite EC. split; [lia|]. split; [|split; [exact M3|split; [exact M4|intros K; rewrite (M5 K); reflexivity]]].
      rewrite M2. f_equal; [lia|]. f_equal. f_equal. unfold step_it, add_cell. cbn [it_chunk it_adv it_vlr it_pos it_total it_cell it_vpts it_found]. f_equal; lia.
Qed.

(** What a call that began with iterator [t0] has found after the points [A]. *)
Definition prog (t0 : iter) (A : list item) (res : list Z) (t : iter) : Prop :=
  res = skipn (Z.to_nat (it_adv t0 - 1)) (conf A) /\ it_adv t = Z.max 0 (it_adv t0 - lenB (conf A)) /\
  it_found t = it_found t0 + lenB (conf A) /\ it_chunk t = it_chunk t0 /\ lenB res <= it_chunk t0.
Lemma prog_start t0 : 0 <= it_adv t0 -> 0 <= it_chunk t0 -> prog t0 [] [] t0.
Proof. intros H1 H2. unfold prog. cbn [conf filter map List.length]. rewrite skipn_nil. repeat split; lia. Qed.
Lemma prog_more t0 A B res t res' t' : 0 <= it_adv t0 -> prog t0 A res t -> res' = res ++ skipn (Z.to_nat (it_adv t - 1)) (conf B) -> it_adv t' = Z.max 0 (it_adv t - lenB (conf B)) ->
  it_found t' = it_found t + lenB (conf B) -> it_chunk t' = it_chunk t -> lenB res' <= it_chunk t -> prog t0 (A ++ B) res' t'.
Proof.
  intros H0 (P1 & P2 & P3 & P4 & P5) -> Q2 Q3 Q4 Q5. unfold prog. rewrite conf_app. split; [|rewrite app_length; repeat split; lia].
  rewrite P1, skipn_app. f_equal. f_equal. lia.
Qed.
Lemma prog_it t0 A res t t' : prog t0 A res t -> it_adv t' = it_adv t -> it_found t' = it_found t -> it_chunk t' = it_chunk t -> prog t0 A res t'.
Proof. intros (P1 & P2 & P3 & P4 & P5) E1 E2 E3. unfold prog. rewrite E1, E2, E3. auto. Qed.
Lemma prog_nil t0 A B res t : conf B = [] -> prog t0 A res t -> prog t0 (A ++ B) res t.
Proof. intros H P. unfold prog in *. now rewrite conf_app, H, app_nil_r. Qed.

Section Iter.
Variables (pts : list coords) (q : query).
Hypothesis HL : lenB pts < 2 ^ 31.
Definition c_items (c : placed_cell) : list item := cell_items pts q (fst (fst c)) (snd (fst c)) (snd c).
Definition g_items (g : group) : list item := flat_map c_items (g_cells g).
Lemma conf_cells l : conf (flat_map c_items l) = flat_map (conform pts q) l.
Proof. induction l as [|c l IH]; [reflexivity|]. cbn [flat_map]. now rewrite conf_app, IH. Qed.

Definition keeps (t t' : iter) : Prop := it_vlr t' = it_vlr t /\ it_total t' = it_total t /\ it_vpts t' = it_vpts t.

Lemma firstn_skipn_le {A} (k m : nat) (l : list A) : (k <= m)%nat -> skipn k (firstn m l) ++ skipn m l = skipn k l.
Proof.
  intros H. rewrite <- (firstn_skipn m l) at 3. destruct (Nat.le_ge_cases m (length l)) as [K|K].
  - rewrite skipn_app. replace (k - length (firstn m l))%nat with 0%nat by (rewrite firstn_length; lia). reflexivity.
  - rewrite (skipn_all2 l K), !app_nil_r. reflexivity.
Qed.

(** The cells of a VLR from [p] on.  [k]: how many points of the first one are
    ignored. *)
Lemma scan_cells_iter d t0 : 0 <= it_adv t0 -> forall cells, Forall (good_cell pts) cells -> forall fuel p sc s pad drs ig A0 t,
  (length cells <= fuel)%nat -> 0 <= sc -> fs_it s = Some t -> full s = false -> prog t0 A0 (fs_res s) t ->
  sits d p (flat_map pc_bytes cells ++ pad) -> drs = p + lenB (flat_map pc_bytes cells) ->
  match cells with [] => ig <= sc | c :: _ => ig - sc <= lenB (c_items c) end ->
  exists v t' A, scan_cells fuel pts q true d drs ig (mkV p sc s) = Ok (v, true) /\ fs_it (vs_s v) = Some t' /\ keeps t t' /\ prog t0 (A0 ++ A) (fs_res (vs_s v)) t' /\
    ig <= vs_n v /\
    ((full (vs_s v) = false /\ A = skipn (Z.to_nat (ig - sc)) (flat_map c_items cells) /\ vs_n v = sc + lenB (flat_map c_items cells)) \/
     (full (vs_s v) = true /\ exists c1 c c2 m, cells = c1 ++ c :: c2 /\ (m <= length (c_items c))%nat /\ it_pos t' = p + lenB (flat_map pc_bytes c1) /\
        it_cell t' = Z.of_nat m /\ vs_n v = sc + lenB (flat_map c_items c1) + Z.of_nat m /\
        A ++ (skipn m (c_items c) ++ flat_map c_items c2) = skipn (Z.to_nat (ig - sc)) (flat_map c_items cells))).
Proof.
  intros HA cells HC. induction cells as [|((x, y), c) cells IH]; intros fuel p sc s pad drs ig A0 t HF H0 HI NF HP HS -> HG.
  - exists (mkV p sc s), t, []. split.
    + cbn [flat_map List.length]. destruct fuel; cbn [scan_cells vs_pos]; replace (p + 4 <? p + Z.of_nat 0) with false by lia; reflexivity.
    + cbn [vs_s vs_n]. rewrite app_nil_r. repeat (split; [first [exact HI | exact HP | exact HG | now repeat split]|]). left. split; [exact NF|]. cbn [flat_map List.length]. rewrite skipn_nil. split; [reflexivity|lia].
  - destruct fuel as [|fuel]; [cbn [List.length] in HF; lia|]. cbn [scan_cells vs_pos]. cbn [flat_map] in HS. rewrite <- app_assoc in HS.
    pose proof (pc_bytes_length (x, y, c)) as PL. cbn [flat_map]. rewrite app_length.
    replace (p + 4 <? p + Z.of_nat (length (pc_bytes (x, y, c)) + length (flat_map pc_bytes cells))) with true by lia.
    destruct (Forall_inv HC) as (C1 & C2 & C3). cbn [fst snd] in C1, C2, C3.
    destruct (scan_cell_walk pts q d ig x y c HL C1 ltac:(lia) ltac:(lia) p sc s _ NF HS) as (v & E & EW & EP). rewrite E. cbn [obind negb].
    set (t1 := at_cell p t). assert (EA : a_it (abs s) (at_cell p) = (fs_res s, Some t1)) by (unfold a_it, abs; cbn [fst snd]; now rewrite HI). rewrite EA in EW. clear EA E.
    assert (NR : lenB (fs_res s) < it_chunk t1). { unfold full in NF. rewrite HI in NF. unfold t1, at_cell. cbn [it_chunk]. lia. }
    assert (AT : 0 <= it_adv t1). { destruct HP as (_ & K & _). unfold t1, at_cell. cbn [it_adv]. lia. }
    change (cell_items pts q x y c) with (c_items (x, y, c)) in EW. set (l := c_items (x, y, c)) in *. set (k := Z.to_nat (ig - sc)) in *.
    destruct (walk_iter l ig sc (fs_res s) t1 AT NR) as (m & res' & M1 & M2 & M3 & M4 & M5). fold k in M2, M3. rewrite M2 in EW. clear M2.
    apply pair_equal_spec in EW. destruct EW as (EN & EW). unfold abs in EW. apply pair_equal_spec in EW. destruct EW as (ER & EI).
    set (B := skipn k (firstn m l)) in *. set (t2 := step_it t1 (Z.of_nat m) (lenB (conf B))) in *.
    assert (PB : prog t0 (A0 ++ B) res' t2).
    { apply (prog_more t0 A0 B (fs_res s) t1 res' t2 HA); [exact (prog_it _ _ _ _ t1 HP eq_refl eq_refl eq_refl)|exact M3|reflexivity|reflexivity|reflexivity|exact M4]. }
    assert (KB : keeps t t2) by now repeat split.
    assert (FV : full (vs_s v) = (it_chunk t1 <=? lenB res')) by (unfold full; rewrite EI, ER; reflexivity).
    assert (KM : (k <= m)%nat).
    { destruct (Nat.le_gt_cases k m) as [K|K]; [exact K|]. assert (B = []) by (unfold B; apply skipn_all2; rewrite firstn_length; lia). rewrite H in M3. cbn [conf filter map] in M3. rewrite skipn_nil, app_nil_r in M3. rewrite M3 in M5. specialize (M5 NR). unfold k in K. lia. }
    destruct (full (vs_s v)) eqn:FU.
    + exists v, t2, B. split; [reflexivity|]. split; [exact EI|]. split; [exact KB|]. split; [rewrite ER; exact PB|]. split; [rewrite EN; unfold k in KM; lia|]. right. split; [exact FU|].
      exists [], (x, y, c), cells, m. cbn [flat_map List.length app]. split; [reflexivity|]. split; [exact M1|]. split; [unfold t2, step_it, t1, at_cell; cbn [it_pos]; lia|]. split; [unfold t2, step_it, t1, at_cell; cbn [it_cell]; lia|]. split; [lia|].
      change (c_items (x, y, c)) with l. rewrite app_assoc. unfold B. rewrite firstn_skipn_le by exact KM. rewrite skipn_app. replace (k - length l)%nat with 0%nat by (unfold k; lia). reflexivity.
    + assert (MM : m = length l) by (apply M5; lia). specialize (EP eq_refl). change (cell_bytes x y c) with (pc_bytes (x, y, c)) in EP. destruct v as [vp vn vs_]. cbn [vs_pos vs_n vs_s] in *. subst vp.
      assert (IG : ig <= vn) by (unfold k in KM; lia).
      destruct (IH (Forall_inv_tail HC) fuel (p + lenB (pc_bytes (x, y, c))) vn vs_ pad (p + lenB (pc_bytes (x, y, c)) + lenB (flat_map pc_bytes cells)) ig (A0 ++ B) t2) as (v2 & t3 & A & E2 & I2 & K2 & P2 & N2 & D2).
      * cbn [List.length] in HF. lia.
      * lia.
      * exact EI.
      * exact FU.
      * rewrite ER. exact PB.
      * apply (sits_skip d p (pc_bytes (x, y, c))). exact HS.
      * reflexivity.
      * destruct cells; [exact IG|]. lia.
      * replace (p + Z.of_nat (length (pc_bytes (x, y, c)) + length (flat_map pc_bytes cells))) with (p + lenB (pc_bytes (x, y, c)) + lenB (flat_map pc_bytes cells)) by lia.
        assert (Z0 : Z.to_nat (ig - vn) = 0%nat) by lia. rewrite Z0 in D2. cbn [skipn] in D2.
        assert (SP : skipn k (l ++ flat_map c_items cells) = B ++ flat_map c_items cells).
        { rewrite skipn_app. replace (k - length l)%nat with 0%nat by (unfold k; lia). cbn [skipn]. f_equal. unfold B. now rewrite MM, firstn_all. }
        exists v2, t3, (B ++ A). split; [exact E2|]. split; [exact I2|]. split; [destruct KB as (? & ? & ?), K2 as (? & ? & ?); unfold keeps; split; [|split]; congruence|]. split; [rewrite app_assoc; exact P2|]. split; [exact N2|].
        change (c_items (x, y, c)) with l. rewrite SP, app_length. destruct D2 as [(F2 & -> & N3)|(F2 & c1 & c' & c2 & m' & D1 & D2 & D3 & D4 & D5 & D6)].
        -- left. split; [exact F2|]. split; [reflexivity|]. lia.
        -- right. split; [exact F2|]. exists ((x, y, c) :: c1), c', c2, m'. cbn [flat_map]. change (c_items (x, y, c)) with l. rewrite !app_length. split; [now rewrite D1|]. split; [exact D2|]. split; [lia|]. split; [exact D4|]. split; [lia|].
           rewrite <- app_assoc, D6. reflexivity.
Qed.

(** ** One group of the index *)

(** index.cpp:560-707: what filter_one_vlr does once the bytes [comp] of the group
    have been read *)
Definition vlr_tail (g : group) (comp : list Z) (j : Z) (s : fstate) : outcome (Z * fstate * bool * bool) :=
  if vlr_interesting q (g_x0 g) (g_y0 g) (g_x1 g) (g_y1 g) then
    let '(pos, ignore, vpts) := match fs_it s with
                                | Some t => if 24 <=? it_pos t then (it_pos t, it_cell t, it_vpts t) else (24, 0, 0)
                                | None => (24, 0, 0)
                                end in
    let! (v, ok) := scan_cells (S (length comp)) pts q true comp (g_size g) ignore (mkV pos 0 s) in
    let s := vs_s v in
    if negb ok then Ok (j, s, false, false)
    else if ignore <=? vs_n v then
      let vpts := vpts + (vs_n v - ignore) in
      Ok (j, with_it s (fun t => mkIter (it_chunk t) (it_adv t) (it_vlr t) (it_pos t) (it_total t + (vs_n v - ignore)) (it_cell t) vpts (it_found t)),
          true, g_pts g mod 2 ^ 32 <=? vpts)
    else Ok (j, s, true, false)
  else
    Ok (j, with_it s (fun t => mkIter (it_chunk t) (it_adv t) (it_vlr t) (it_pos t) (it_total t + g_pts g mod 2 ^ 32) (it_cell t) (it_vpts t) (it_found t)),
        true, match fs_it s with Some _ => true | None => false end).

Lemma one_vlr_tail ix pre post g v r s i : head_in g -> with_counts (ix_h ix) = true -> group_vlrs g (v :: r) -> lenB pre = i ->
  exists pad, filter_one_vlr pts ix q (pre ++ (v :: r) ++ post) i v s = vlr_tail g (g_data g ++ pad) (i + lenB r) s.
Proof.
  intros HH HV HG HP. unfold filter_one_vlr. change ((1 <? ih_major (ix_h ix)) || (1 <=? ih_minor (ix_h ix))) with (with_counts (ix_h ix)). rewrite HV.
  pose proof (g_data_length g) as LG. assert (SZ : 24 <= g_size g) by (unfold g_size; lia).
  destruct (group_vlrs_inv g v r HG) as [(pad & HS & -> & ->)|(HB & -> & HT)].
  - rewrite data_vlr_size by lia. replace (g_size g + lenB pad =? 0) with false by lia. cbn [v_data data_vlr].
    assert (LD : lenB (g_data g ++ pad) = g_size g + lenB pad) by (rewrite app_length; lia). rewrite LD.
    replace (g_size g + lenB pad <? g_size g + lenB pad) with false by lia.
    rewrite (firstn_all2 (n := Z.to_nat (g_size g + lenB pad)) (g_data g ++ pad)) by lia.
    destruct (head_get g (g_bytes g ++ pad) HH) as (G0 & G1 & G2 & G3 & G4 & G5). rewrite app_assoc in G0, G1, G2, G3, G4, G5. fold (g_data g) in G0, G1, G2, G3, G4, G5.
    rewrite G0, G1, G2, G3, G4, G5. replace (g_size g + lenB pad <? g_size g) with false by lia. cbn [obind].
    cbn [List.length]. rewrite Z.add_0_r. exists pad. reflexivity.
  - rewrite data_vlr_size by (unfold vlr_max; lia). change (vlr_max =? 0) with false. cbv iota. cbn [v_data data_vlr].
    assert (L1 : lenB (firstn (Z.to_nat vlr_max) (g_data g)) = vlr_max) by (rewrite firstn_length; unfold vlr_max in *; lia). rewrite L1.
    change (vlr_max <? vlr_max) with false. cbv iota. rewrite (firstn_all2 (n := Z.to_nat vlr_max) (firstn _ _)) by lia.
    assert (DD : firstn (Z.to_nat vlr_max) (g_data g) = g_head g ++ firstn (Z.to_nat (vlr_max - 24)) (g_bytes g)).
    { unfold g_data. rewrite firstn_app. pose proof (head6_length (g_x0 g) (g_y0 g) (g_x1 g) (g_y1 g) (g_size g) (g_pts g)) as LH. fold (g_head g) in LH.
      rewrite firstn_all2 by (unfold vlr_max; lia). f_equal. }
    destruct (head_get g (firstn (Z.to_nat (vlr_max - 24)) (g_bytes g)) HH) as (G0 & G1 & G2 & G3 & G4 & G5). rewrite <- DD in G0, G1, G2, G3, G4, G5.
    rewrite G0, G1, G2, G3, G4, G5. replace (vlr_max <? g_size g) with true by lia.
    set (rest := skipn (Z.to_nat vlr_max) (g_data g)) in *. assert (LR : lenB rest = g_size g - vlr_max) by (unfold rest; rewrite skipn_length; unfold vlr_max in *; lia).
    rewrite <- LR. set (v0 := data_vlr vlr_max (firstn (Z.to_nat vlr_max) (g_data g))).
    replace (pre ++ (v0 :: r) ++ post) with ((pre ++ [v0]) ++ r ++ post) by (rewrite <- app_assoc; reflexivity).
    rewrite (gather_ok r rest (pre ++ [v0]) post _ _ i (g_size g) HT); [|rewrite app_length; cbn [List.length]; lia|lia|rewrite L1, LR; lia|rewrite !app_length; cbn [List.length]; lia].
    cbn [obind]. unfold rest. rewrite firstn_skipn. exists []. rewrite app_nil_r. reflexivity.
Qed.

(** the number of points the group says it has is the number of points in it *)
Definition whole (g : group) : Prop := lenB (g_items g) = g_pts g.
Definition fresh (t : iter) : Prop := it_pos t = 0 /\ it_cell t = 0 /\ it_vpts t = 0.
(** the iterator stopped in the group; [R] are the points after it *)
Definition resume (g : group) (t : iter) (R : list item) : Prop :=
  vlr_interesting q (g_x0 g) (g_y0 g) (g_x1 g) (g_y1 g) = true /\
  exists c1 c c2 m, g_cells g = c1 ++ c :: c2 /\ (m <= length (c_items c))%nat /\ it_pos t = 24 + lenB (flat_map pc_bytes c1) /\ it_cell t = Z.of_nat m /\
    it_vpts t = lenB (flat_map c_items c1) + Z.of_nat m /\ R = skipn m (c_items c) ++ flat_map c_items c2.
Definition at_group (g : group) (t : iter) (R : list item) : Prop := (fresh t /\ R = g_items g) \/ resume g t R.

Lemma count_range l : forall a, 0 <= a < 2 ^ 32 -> 0 <= fold_left (fun n (c : placed_cell) => (n + k_num (snd c)) mod 2 ^ 32) l a < 2 ^ 32.
Proof. induction l as [|c l IH]; intros a H; cbn [fold_left]; [exact H|]. apply IH. apply Z.mod_pos_bound. lia. Qed.
Lemma g_pts_mod g : g_pts g mod 2 ^ 32 = g_pts g.
Proof. apply Z.mod_small. apply count_range. lia. Qed.

Lemma scan_group_iter g pad t0 A0 s t c1 cs ig : 0 <= it_adv t0 -> Forall (good_cell pts) (g_cells g) -> g_cells g = c1 ++ cs ->
  fs_it s = Some t -> full s = false -> prog t0 A0 (fs_res s) t -> match cs with [] => ig <= 0 | c :: _ => ig <= lenB (c_items c) end ->
  exists v t' A, scan_cells (S (length (g_data g ++ pad))) pts q true (g_data g ++ pad) (g_size g) ig (mkV (24 + lenB (flat_map pc_bytes c1)) 0 s) = Ok (v, true) /\
    fs_it (vs_s v) = Some t' /\ keeps t t' /\ prog t0 (A0 ++ A) (fs_res (vs_s v)) t' /\ ig <= vs_n v /\
    ((full (vs_s v) = false /\ A = skipn (Z.to_nat ig) (flat_map c_items cs) /\ vs_n v = lenB (flat_map c_items cs)) \/
     (full (vs_s v) = true /\ exists d1 c d2 m, g_cells g = (c1 ++ d1) ++ c :: d2 /\ (m <= length (c_items c))%nat /\ it_pos t' = 24 + lenB (flat_map pc_bytes (c1 ++ d1)) /\
        it_cell t' = Z.of_nat m /\ vs_n v = lenB (flat_map c_items d1) + Z.of_nat m /\
        A ++ (skipn m (c_items c) ++ flat_map c_items d2) = skipn (Z.to_nat ig) (flat_map c_items cs))).
Proof.
  intros HA HC EC HI NF HP HG. rewrite EC in HC. apply Forall_app in HC. destruct HC as (_ & HC). pose proof (cells_count g) as CC. rewrite EC, app_length in CC.
  assert (GB : g_bytes g = flat_map pc_bytes c1 ++ flat_map pc_bytes cs) by (unfold g_bytes; now rewrite EC, flat_map_app).
  destruct (scan_cells_iter (g_data g ++ pad) t0 HA cs HC (S (length (g_data g ++ pad))) (24 + lenB (flat_map pc_bytes c1)) 0 s pad (g_size g) ig A0 t) as (v & t' & A & E & I & K & P & N & D).
  - unfold g_data. rewrite !app_length. lia.
  - lia.
  - exact HI.
  - exact NF.
  - exact HP.
  - exists (g_head g ++ flat_map pc_bytes c1). unfold g_data. rewrite GB, <- !app_assoc. split; [reflexivity|]. rewrite app_length. pose proof (head6_length (g_x0 g) (g_y0 g) (g_x1 g) (g_y1 g) (g_size g) (g_pts g)) as LH. fold (g_head g) in LH. lia.
  - unfold g_size. rewrite GB, app_length. lia.
  - destruct cs; lia.
  - rewrite Z.sub_0_r in D. exists v, t', A. repeat (split; [assumption|]). destruct D as [(F & A1 & A2)|(F & d1 & c & d2 & m & D1 & D2 & D3 & D4 & D5 & D6)].
    + left. split; [exact F|]. split; [exact A1|]. lia.
    + right. split; [exact F|]. exists d1, c, d2, m. split; [rewrite EC, D1; now rewrite app_assoc|]. split; [exact D2|]. split; [rewrite flat_map_app, app_length; lia|]. split; [exact D4|]. split; [lia|exact D6].
Qed.

Lemma group_iter ix pre post g v r s i t0 A0 t R : 0 <= it_adv t0 -> Forall (good_cell pts) (g_cells g) -> head_in g -> span_ok g \/ (ax_off (q_x q) = true /\ ax_off (q_y q) = true) -> whole g -> with_counts (ix_h ix) = true ->
  group_vlrs g (v :: r) -> lenB pre = i -> fs_it s = Some t -> full s = false -> prog t0 A0 (fs_res s) t -> at_group g t R ->
  exists s' t' dn A R', filter_one_vlr pts ix q (pre ++ (v :: r) ++ post) i v s = Ok (i + lenB r, s', true, dn) /\ fs_it s' = Some t' /\
    prog t0 (A0 ++ A) (fs_res s') t' /\ A ++ R' = R /\ it_total t' + lenB R' = it_total t + lenB R /\
    if dn then R' = [] else full s' = true /\ resume g t' R'.
Proof.
  intros HA HC HH HS HW HV HG HP HI NF PR HR. destruct (one_vlr_tail ix pre post g v r s i HH HV HG HP) as (pad & ->). unfold vlr_tail. rewrite g_pts_mod.
  unfold whole in HW. destruct (vlr_interesting q _ _ _ _) eqn:VI.
  - assert (ST : exists c1 cs ig, g_cells g = c1 ++ cs /\ match cs with [] => ig <= 0 | c :: _ => ig <= lenB (c_items c) end /\ 0 <= ig /\ R = skipn (Z.to_nat ig) (flat_map c_items cs) /\
      (match fs_it s with Some t => if 24 <=? it_pos t then (it_pos t, it_cell t, it_vpts t) else (24, 0, 0) | None => (24, 0, 0) end) =
        (24 + lenB (flat_map pc_bytes c1), ig, lenB (flat_map c_items c1) + ig)).
    { rewrite HI. destruct HR as [((T1 & T2 & T3) & ->)|(_ & c1 & c & c2 & m & E1 & E2 & E3 & E4 & E5 & ->)].
      - exists [], (g_cells g), 0. rewrite T1. change (24 <=? 0) with false. cbv iota. cbn [app flat_map List.length Z.to_nat skipn]. split; [reflexivity|]. split; [destruct (g_cells g); lia|]. split; [lia|]. split; reflexivity.
      - exists c1, (c :: c2), (Z.of_nat m). split; [exact E1|]. split; [lia|]. split; [lia|]. replace (24 <=? it_pos t) with true by lia. split; [|rewrite E3, E4, E5; reflexivity].
        rewrite Nat2Z.id. cbn [flat_map]. rewrite skipn_app. replace (m - length (c_items c))%nat with 0%nat by lia. reflexivity. }
    destruct ST as (c1 & cs & ig & EC & HG1 & IG0 & ER & ->).
    destruct (scan_group_iter g pad t0 A0 s t c1 cs ig HA HC EC HI NF PR HG1) as (v2 & t' & A & E & I & (K1 & K2 & K3) & P & N & D).
    rewrite E. cbn [obind negb]. replace (ig <=? vs_n v2) with true by lia. unfold g_items in HW. rewrite EC, flat_map_app, app_length in HW.
    assert (IGL : ig <= lenB (flat_map c_items cs)). { destruct cs; cbn [flat_map]; rewrite ?app_length; cbn [List.length]; lia. }
    assert (LR : lenB R = lenB (flat_map c_items cs) - ig) by (rewrite ER, skipn_length; lia).
    set (t2 := mkIter (it_chunk t') (it_adv t') (it_vlr t') (it_pos t') (it_total t' + (vs_n v2 - ig)) (it_cell t') (lenB (flat_map c_items c1) + ig + (vs_n v2 - ig)) (it_found t')).
    assert (I2 : fs_it (with_it (vs_s v2) (fun t => mkIter (it_chunk t) (it_adv t) (it_vlr t) (it_pos t) (it_total t + (vs_n v2 - ig)) (it_cell t) (lenB (flat_map c_items c1) + ig + (vs_n v2 - ig)) (it_found t))) = Some t2).
    { unfold with_it. cbn [fs_it]. rewrite I. reflexivity. }
    destruct D as [(F & EA & EN)|(F & d1 & c & d2 & m & D1 & D2 & D3 & D4 & D5 & D6)].
    + eexists _, t2, _, A, []. split; [reflexivity|]. split; [exact I2|]. split; [apply (prog_it _ _ _ _ t2 P); reflexivity|]. split; [rewrite app_nil_r, EA; now symmetry|]. split; [cbn [List.length t2 it_total]; lia|].
      replace (g_pts g <=? lenB (flat_map c_items c1) + ig + (vs_n v2 - ig)) with true by lia. reflexivity.
    + assert (LT : lenB A + lenB (skipn m (c_items c) ++ flat_map c_items d2) = lenB R) by (rewrite ER, <- D6, !app_length; lia).
      assert (LG : lenB (flat_map c_items c1) + lenB (flat_map c_items cs) = lenB (flat_map c_items c1) + lenB (flat_map c_items d1) + lenB (c_items c) + lenB (flat_map c_items d2)).
      { assert (X : lenB (flat_map c_items (c1 ++ cs)) = lenB (flat_map c_items ((c1 ++ d1) ++ c :: d2))) by (rewrite <- EC, D1; reflexivity). rewrite !flat_map_app in X. cbn [flat_map] in X. rewrite !app_length in X. lia. }
      assert (LS : lenB (skipn m (c_items c) ++ flat_map c_items d2) = lenB (c_items c) - Z.of_nat m + lenB (flat_map c_items d2)) by (rewrite app_length, skipn_length; lia).
      exists (with_it (vs_s v2) (fun t => mkIter (it_chunk t) (it_adv t) (it_vlr t) (it_pos t) (it_total t + (vs_n v2 - ig)) (it_cell t) (lenB (flat_map c_items c1) + ig + (vs_n v2 - ig)) (it_found t))), t2.
      eexists _, A, (skipn m (c_items c) ++ flat_map c_items d2). split; [reflexivity|]. split; [exact I2|]. split; [apply (prog_it _ _ _ _ t2 P); reflexivity|]. split; [rewrite D6; now symmetry|]. split; [cbn [t2 it_total]; lia|].
      destruct (Z.leb_spec (g_pts g) (lenB (flat_map c_items c1) + ig + (vs_n v2 - ig))) as [Q|Q].
      * apply length_zero_iff_nil. lia.
      * split; [unfold full; rewrite I2; unfold full in F; rewrite I in F; exact F|]. split; [exact VI|]. exists (c1 ++ d1), c, d2, m. split; [exact D1|]. split; [exact D2|]. split; [exact D3|]. split; [exact D4|]. split; [|reflexivity].
        cbn [t2 it_vpts]. rewrite flat_map_app, app_length. lia.
  - assert (R0 : R = g_items g) by (destruct HR as [(_ & HR)|(HR & _)]; [exact HR|congruence]).
    assert (CN : conf R = []).
    { rewrite R0. unfold g_items. rewrite conf_cells. destruct HS as [HS|(O1 & O2)]; [exact (hidden_none pts q g HH HC HS VI)|]. unfold vlr_interesting in VI. rewrite O1, O2 in VI. discriminate VI. }
    rewrite HI. eexists _, _, _, R, []. split; [reflexivity|]. split; [unfold with_it; cbn [fs_it]; rewrite HI; reflexivity|].
    split; [apply prog_nil; [exact CN|]; apply (prog_it _ _ _ _ _ PR); reflexivity|]. split; [apply app_nil_r|]. split; [|reflexivity]. cbn [it_total List.length]. rewrite R0. lia.
Qed.

(** ** The groups from some VLR on *)

Definition at_groups (gs : list group) (t : iter) (R : list item) : Prop :=
  match gs with [] => R = [] | g :: gs => exists R1, at_group g t R1 /\ R = R1 ++ flat_map g_items gs end.
Definition group_fine (g : group) : Prop :=
  Forall (good_cell pts) (g_cells g) /\ head_in g /\ (span_ok g \/ (ax_off (q_x q) = true /\ ax_off (q_y q) = true)) /\ whole g.

Lemma at_groups_fresh gs t : fresh t -> at_groups gs t (flat_map g_items gs).
Proof. intros H. destruct gs as [|g gs]; [reflexivity|]. exists (g_items g). split; [left; now split|reflexivity]. Qed.

Lemma data_loop_iter ix gs vs t0 : 0 <= it_adv t0 -> with_counts (ix_h ix) = true -> ih_data (ix_h ix) = 43 -> encodes gs vs -> Forall group_fine gs ->
  forall fuel pre s t A0 R, (length vs <= fuel)%nat -> fs_it s = Some t -> full s = false -> prog t0 A0 (fs_res s) t -> at_groups gs t R ->
  exists s' t' A R' vs1 vs2 gs2, filter_loop fuel pts (pre ++ vs) ix q (lenB pre) s = Ok (ix, q, s', lenB (pre ++ vs1)) /\ fs_it s' = Some t' /\
    prog t0 (A0 ++ A) (fs_res s') t' /\ A ++ R' = R /\ it_total t' + lenB R' = it_total t + lenB R /\ (full s' = false -> R' = []) /\
    vs = vs1 ++ vs2 /\ encodes gs2 vs2 /\ Forall group_fine gs2 /\ at_groups gs2 t' R'.
Proof.
  intros HA HV HD HE. induction HE as [|g vs gs rest HG HE IH]; intros HF fuel pre s t A0 R HU HI NF HP HR.
  - exists s, t, [], [], [], [], []. cbn [at_groups] in HR. subst R. rewrite !app_nil_r. split; [destruct fuel; cbn [filter_loop]; replace (lenB pre <=? lenB pre) with true by lia; reflexivity|].
    split; [exact HI|]. split; [exact HP|]. repeat (split; [reflexivity|]). split; [constructor|]. split; [constructor|reflexivity].
  - destruct (group_vlrs_cons g vs HG) as (v & r & ->). destruct fuel as [|fuel]; [cbn [app List.length] in HU; lia|]. cbn [filter_loop].
    replace (lenB (pre ++ (v :: r) ++ rest) <=? lenB pre) with false by (rewrite !app_length; cbn [List.length]; lia).
    rewrite nth_error_app2 by lia. replace (Z.to_nat (lenB pre) - length pre)%nat with 0%nat by lia. cbn [app nth_error].
    destruct (group_vlr_id g v r HG) as (U & V). rewrite U, V, HD. change (43 =? 42) with false. change (43 =? 43) with true. cbv iota.
    destruct (Forall_inv HF) as (GC & GH & GS & GW). destruct HR as (R1 & HR1 & ->).
    destruct (group_iter ix pre rest g v r s (lenB pre) t0 A0 t R1 HA GC GH GS GW HV HG eq_refl HI NF HP HR1) as (s1 & t1 & dn & A & R' & E1 & I1 & P1 & AR & TT & D). change ((v :: r) ++ rest) with (v :: r ++ rest) in E1.
    rewrite E1. cbn [obind negb]. rewrite I1.
    assert (LJ : lenB pre + lenB r + 1 = lenB (pre ++ v :: r)) by (rewrite app_length; cbn [List.length]; lia). rewrite LJ.
    destruct dn.
    + subst R'. rewrite app_nil_r in AR. subst R1. set (s2 := with_it s1 (fun t => mkIter (it_chunk t) (it_adv t) (it_vlr t) 0 (it_total t) 0 0 (it_found t))). set (t2 := mkIter (it_chunk t1) (it_adv t1) (it_vlr t1) 0 (it_total t1) 0 0 (it_found t1)).
      assert (I2 : fs_it s2 = Some t2) by (unfold s2, with_it; cbn [fs_it]; now rewrite I1). assert (P2 : prog t0 (A0 ++ A) (fs_res s2) t2) by (apply (prog_it _ _ _ _ t2 P1); reflexivity).
      assert (FR : fresh t2) by now repeat split. destruct (full s2) eqn:F2.
      * exists s2, t2, A, (flat_map g_items gs), (v :: r), rest, gs. split; [reflexivity|]. split; [exact I2|]. split; [exact P2|]. split; [reflexivity|]. split; [rewrite app_length; cbn [t2 it_total List.length] in *; lia|].
        split; [rewrite F2; discriminate|]. split; [reflexivity|]. split; [exact HE|]. split; [exact (Forall_inv_tail HF)|]. now apply at_groups_fresh.
      * destruct (IH (Forall_inv_tail HF) fuel (pre ++ v :: r) s2 t2 (A0 ++ A) (flat_map g_items gs)) as (s3 & t3 & A3 & R3 & vs1 & vs2 & gs2 & E3 & I3 & P3 & AR3 & T3 & FU3 & V3 & G3 & F3 & AG3).
        { cbn [app List.length] in HU. rewrite app_length in HU. lia. } { exact I2. } { exact F2. } { exact P2. } { now apply at_groups_fresh. }
        exists s3, t3, (A ++ A3), R3, ((v :: r) ++ vs1), vs2, gs2. replace (pre ++ v :: r ++ rest) with ((pre ++ v :: r) ++ rest) by now rewrite <- app_assoc.
        rewrite E3. split; [f_equal; f_equal; now rewrite <- app_assoc|]. split; [exact I3|]. split; [rewrite app_assoc; exact P3|]. split; [rewrite <- app_assoc, AR3; reflexivity|].
        split; [rewrite app_length; cbn [t2 it_total List.length] in *; lia|]. split; [exact FU3|]. split; [cbn [app]; rewrite V3, app_assoc; reflexivity|]. split; [exact G3|]. split; [exact F3|exact AG3].
    + destruct D as (F & RS). rewrite F. exists s1, t1, A, (R' ++ flat_map g_items gs), [], ((v :: r) ++ rest), (g :: gs). rewrite app_nil_r. split; [reflexivity|]. split; [exact I1|]. split; [exact P1|].
      split; [rewrite app_assoc, AR; reflexivity|]. split; [rewrite !app_length; lia|]. split; [rewrite F; discriminate|]. split; [reflexivity|]. split; [constructor; assumption|]. split; [exact HF|].
      exists R'. split; [now right|reflexivity].
Qed.

End Iter.

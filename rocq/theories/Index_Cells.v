(** The cells BuildIndex writes: they hold exactly the points whose coordinates
    select them. *)
From Coq Require Import ZArith List Bool Lia Sorted.
From Coq Require Import ZifyBool ZifyNat.
Import ListNotations.
From Verif Require Import Outcome Bytes Float64 Bounds_Model Chipper_Spec Chipper_Lists Index_Cell Index_Temp Index_Scan Index_Out Index_Query Index_Spec Index_Image Index_ScanProofs Index_Items Index_Groups Index_Filter Index_Build Index_Grid Index_QuerySpec Index_Size Index_Divide.
Local Open Scope Z_scope.
Local Notation length := List.length (only parsing).

Record grid_ok (g : grid) : Prop := {
  go_x : wide (gr_x g); go_y : wide (gr_y g);
  go_rx : gr_rx g = f64_sub (rg_max (gr_x g)) (rg_min (gr_x g)); go_ry : gr_ry g = f64_sub (rg_max (gr_y g)) (rg_min (gr_y g));
  go_cx : 1 <= gr_cx g <= 6554; go_cy : 1 <= gr_cy g <= 6554; go_cz : gr_cz g = 1;
  go_sx : gr_sx g = f64_div (gr_rx g) (f64_of_Z (gr_cx g)); go_sy : gr_sy g = f64_div (gr_ry g) (f64_of_Z (gr_cy g)) }.

(** the cell [a] of a point [p]: its column and row are right for its coordinates *)
Definition right_cell (g : grid) (p : coords) (a : placed) : Prop :=
  exists kx ky, a = Some (kx * gr_cy g + ky, c_z p) /\ 0 <= kx < gr_cx g /\ 0 <= ky < gr_cy g /\
    near (rg_min (gr_x g)) (rg_max (gr_x g)) (gr_cx g) kx (c_x p) /\ near (rg_min (gr_y g)) (rg_max (gr_y g)) (gr_cy g) ky (c_y p).

Lemma identify_all_ok g pts : grid_ok g -> Forall (inside (gr_x g) (gr_y g) (gr_z g)) pts ->
  exists ps, identify_all g pts = Ok ps /\ Forall2 (right_cell g) pts ps.
Proof.
  intros G HP. induction HP as [|p pts (PX & PY & _) HP IH]; cbn [identify_all]; [exists []; split; [reflexivity|constructor]|].
  destruct IH as (ps & E & F). unfold identify_cell. pose proof (go_cx _ G). pose proof (go_cy _ G).
  destruct (identify_ok _ _ (gr_cx g) (wide_fine _ (gr_cx g) (go_x _ G) ltac:(lia)) _ PX) as (kx & EX & BX & NX).
  destruct (identify_ok _ _ (gr_cy g) (wide_fine _ (gr_cy g) (go_y _ G) ltac:(lia)) _ PY) as (ky & EY & BY & NY).
  rewrite (go_rx _ G), EX. cbn [obind]. rewrite (go_ry _ G), EY. cbn [obind]. rewrite E. cbn [obind]. eexists. split; [reflexivity|]. constructor; [|exact F]. exists kx, ky. auto.
Qed.

Lemma right_placed g pts ps : grid_ok g -> Forall2 (right_cell g) pts ps -> placed_in (gr_cx g * gr_cy g) ps /\ ~ In None ps.
Proof.
  intros G H. induction H as [|p a pts ps (kx & ky & -> & B1 & B2 & _) H (IH1 & IH2)]; [split; [constructor|intros []]|]. split.
  - constructor; [nia|exact IH1].
  - intros [K|K]; [discriminate|contradiction].
Qed.
Lemma no_rejoin ps : ~ In None ps -> ~ rejoins ps.
Proof. intros H (a & k & z & m & z' & b & ->). apply H. apply in_or_app. right. right. apply in_or_app. left. now left. Qed.

Lemma scan_all_ok n maxmem ps : 0 < n < 2 ^ 32 -> lenB ps < 2 ^ 32 -> placed_in n ps -> ~ rejoins ps ->
  exists s G, scan_all n true maxmem ps = Ok s /\ pinv n ps (s_cells s) (s_temp s) G /\ t_file (s_temp s) <> None /\
    forall i, (i < length (s_cells s))%nat -> k_pts (nth i (s_cells s) cell0) = [].
Proof.
  intros Hn HL HP HR. destruct (scan_points_inv n true maxmem ps [] (scan0 n) [] Hn HL HP HR (scan0_inv n Hn)) as (s & G & E & I & _).
  cbn [app] in I. destruct (pinv_purge n ps (s_cells s) (s_temp s) G Hn HL (inv_pinv _ _ _ _ I)) as (cells & t & G' & EP & PI & TF & K).
  unfold scan_all. rewrite E. cbn [obind]. rewrite EP. eexists _, G'. split; [reflexivity|]. cbn [s_cells s_temp]. split; [exact PI|]. split; [exact TF|]. intros i Hi. now apply K.
Qed.

(** ** Dividing and finishing *)
Definition key (g : grid) (x y : Z) (p : coords) : Z :=
  sub_number (upper (rg_min (gr_x g)) (gr_sx g) x (c_x p)) (upper (rg_min (gr_y g)) (gr_sy g) y (c_y p)).
Lemma key_range g x y p : 0 <= key g x y p < 4.
Proof. unfold key, sub_number. destruct (upper _ _ _ _), (upper _ _ _ _); lia. Qed.

Definition run1 (p : Z * Z) : Prop := 0 <= fst p /\ 1 <= snd p <= 255.
(** the finished cell number [k] holding the points [ids] *)
Record fin_cell (g : grid) (pts : list coords) (ids : list Z) (k : Z) (pc : placed_cell) : Prop := {
  fc_x : fst (fst pc) = k / gr_cy g;
  fc_y : snd (fst pc) = k mod gr_cy g;
  fc_num : k_num (snd pc) = lenB ids;
  fc_z : k_zsub (snd pc) = [];
  fc_runs : (k_xysub (snd pc) = [] /\ expand (k_pts (snd pc)) = ids /\ Forall run1 (k_pts (snd pc))) \/
            (k_pts (snd pc) = [] /\ ids <> [] /\ dinv pts (key g (k / gr_cy g) (k mod gr_cy g)) 4 ids (k_xysub (snd pc))) }.

Lemma ids_sorted k ps : StronglySorted Z.lt (ids_of k ps).
Proof. apply filter_sorted, zseq_sorted. Qed.

Lemma divide_cell_ok g csz pts k c ids : gr_cz g = 1 -> StronglySorted Z.lt ids -> Forall (fun i => i < lenB pts) ids ->
  k_num c = lenB ids -> expand (k_pts c) = ids -> Forall run1 (k_pts c) -> k_zsub c = [] -> k_xysub c = [] ->
  exists c', divide_cell g csz pts (k / gr_cy g) (k mod gr_cy g) c = Ok (Some c') /\ fin_cell g pts ids k (k / gr_cy g, k mod gr_cy g, c').
Proof.
  intros HZ HS HB HN HE HR Z0 X0. unfold divide_cell. rewrite HZ. change (1 <? 1) with false. cbn [andb orb].
  destruct (Z.ltb_spec 1000 (k_num c)) as [L|L].
  - rewrite X0. set (x := k / gr_cy g). set (y := k mod gr_cy g).
    assert (D0 : dinv pts (key g x y) 4 [] []). { constructor; [constructor|constructor|]. intros s. reflexivity. }
    destruct (divide_runs_ok pts (part_of g false x y) (key g x y) 4 (fun p => eq_refl) (key_range g x y) eq_refl (k_pts c) [] [] HR) as (m & EM & DM); [now rewrite HE|cbn [app]; now rewrite HE|exact D0|].
    rewrite EM. cbn [obind]. eexists. split; [reflexivity|]. cbn [app] in DM. rewrite HE in DM.
    constructor; unfold remove_main_records, with_xysub, k_with_pts; cbn [fst snd k_num k_zsub k_xysub k_pts]; try reflexivity; try assumption.
    right. split; [reflexivity|]. split; [|exact DM]. intros ->. cbn in HN. lia.
  - eexists. split; [reflexivity|]. constructor; cbn [fst snd]; try reflexivity; try assumption. left. auto.
Qed.

Lemma finish_cells_ok g csz pts ps t cells : gr_cz g = 1 -> length ps = length pts -> forall k,
  (forall j, (j < length cells)%nat -> exists c, load_cell t (k + Z.of_nat j) (nth j cells cell0) = Ok (Some c) /\ expand (k_pts c) = ids_of (k + Z.of_nat j) ps /\
     k_num c = lenB (ids_of (k + Z.of_nat j) ps) /\ Forall run1 (k_pts c) /\ k_zsub c = [] /\ k_xysub c = []) ->
  exists l, finish_cells g csz pts t k cells = Ok (Some l) /\ length l = length cells /\
    forall j pc, nth_error l j = Some pc -> fin_cell g pts (ids_of (k + Z.of_nat j) ps) (k + Z.of_nat j) pc.
Proof.
  intros HZ HP. induction cells as [|c cells IH]; intros k H; cbn [finish_cells].
  - exists []. split; [reflexivity|]. split; [reflexivity|]. intros [|j] pc E; discriminate.
  - destruct (H 0%nat) as (c1 & E1 & H1 & H2 & H3 & H4 & H5); [cbn [List.length]; lia|]. cbn [nth Z.of_nat] in E1. replace (k + 0) with k in * by lia. rewrite Z.add_0_r in *. rewrite E1. cbn [obind].
    destruct (divide_cell_ok g csz pts k c1 (ids_of k ps) HZ (ids_sorted k ps)) as (c2 & E2 & F2); try assumption.
    { apply Forall_forall. intros i Hi. apply ids_range in Hi. lia. }
    rewrite E2. cbn [obind]. destruct (IH (k + 1)) as (l & EL & LL & FL).
    { intros j Hj. destruct (H (S j)) as (c' & K); [cbn [List.length]; lia|]. cbn [nth] in K. replace (k + Z.of_nat (S j)) with (k + 1 + Z.of_nat j) in K by lia. eauto. }
    rewrite EL. cbn [obind]. eexists. split; [reflexivity|]. split; [cbn [List.length]; lia|]. intros [|j] pc E; cbn [nth_error] in E.
    + apply some_inj in E. subst pc. cbn [Z.of_nat]. rewrite Z.add_0_r. exact F2.
    + specialize (FL j pc E). replace (k + Z.of_nat (S j)) with (k + 1 + Z.of_nat j) by lia. exact FL.
Qed.

Lemma Forall2_len {A B} (R : A -> B -> Prop) l l' : Forall2 R l l' -> length l = length l'.
Proof. induction 1; cbn [List.length]; lia. Qed.

(** the cells in the order they are written *)
Theorem cells_ok g csz maxmem pts : grid_ok g -> lenB pts < 2 ^ 32 -> Forall (inside (gr_x g) (gr_y g) (gr_z g)) pts ->
  exists ps s l, identify_all g pts = Ok ps /\ Forall2 (right_cell g) pts ps /\ scan_all ((gr_cx g * gr_cy g) mod 2 ^ 32) true maxmem ps = Ok s /\
    finish_cells g csz pts (s_temp s) 0 (s_cells s) = Ok (Some l) /\ lenB l = gr_cx g * gr_cy g /\
    forall j pc, nth_error l j = Some pc -> fin_cell g pts (ids_of (Z.of_nat j) ps) (Z.of_nat j) pc.
Proof.
  intros G HL HP. destruct (identify_all_ok g pts G HP) as (ps & EI & FI). destruct (right_placed g pts ps G FI) as (PI & NI).
  pose proof (Forall2_len _ _ _ FI) as LP. pose proof (go_cx _ G). pose proof (go_cy _ G). set (n := gr_cx g * gr_cy g) in *. assert (Hn : 0 < n < 2 ^ 32) by (unfold n; nia).
  rewrite (Z.mod_small n) by lia. destruct (scan_all_ok n maxmem ps Hn ltac:(lia) PI (no_rejoin ps NI)) as (s & Gb & ES & PV & TF & KE).
  pose proof (p_len _ _ _ _ _ PV) as LC.
  destruct (finish_cells_ok g csz pts ps (s_temp s) (s_cells s) (go_cz _ G) ltac:(lia) 0) as (l & EL & LL & FL).
  { intros j Hj. destruct (pinv_load n ps (s_cells s) (s_temp s) Gb (Z.of_nat j) Hn ltac:(lia) PV TF ltac:(lia)) as (c & E1 & E2 & E3 & E4 & E5 & _ & _ & _ & E6 & E7); [rewrite Nat2Z.id; now apply KE|].
    rewrite Nat2Z.id in E1. exists c. cbn [Z.add]. replace (0 + Z.of_nat j) with (Z.of_nat j) by lia. repeat (split; [assumption|]). split; [|tauto]. eapply Forall_impl; [|exact E4]. intros r Hr. cbv beta in Hr. unfold run1. lia. }
  exists ps, s, l. repeat (split; [assumption|]). split; [lia|]. intros j pc E. specialize (FL j pc E). replace (0 + Z.of_nat j) with (Z.of_nat j) in FL by lia. exact FL.
Qed.

(** ** What the writer and the query ask of them *)
Section Cells.
Variables (g : grid) (pts : list coords) (ps : list placed) (l : list placed_cell).
Hypothesis G : grid_ok g.
Hypothesis HL : lenB pts <= 800000000.
Hypothesis HP : length ps = length pts.
Hypothesis HN : lenB l = gr_cx g * gr_cy g.
Hypothesis HF : forall j pc, nth_error l j = Some pc -> fin_cell g pts (ids_of (Z.of_nat j) ps) (Z.of_nat j) pc.

Lemma ids_small k : lenB (ids_of k ps) <= lenB pts /\ Forall (fun i => i < lenB pts) (ids_of k ps).
Proof. split; [pose proof (ids_length k ps); lia|]. apply Forall_forall. intros i Hi. apply ids_range in Hi. lia. Qed.

Lemma fin_good ids k pc : fin_cell g pts ids k pc -> 0 <= k < gr_cx g * gr_cy g -> StronglySorted Z.lt ids -> lenB ids <= lenB pts -> Forall (fun i => i < lenB pts) ids ->
  good_cell pts pc /\ fits32 pc /\ lenB (pc_bytes pc) <= 60 + 5 * lenB ids.
Proof.
  intros [F1 F2 F3 F4 F5] Hk HS HI HB. pose proof (go_cx _ G). pose proof (go_cy _ G). destruct pc as ((x, y), c). cbn [fst snd] in *.
  assert (SZ : cell_ok pts c /\ lenB (cell_bytes x y c) <= 60 + 5 * lenB ids).
  { unfold cell_bytes, get_num_z_records, get_num_sub_records, get_num_records. rewrite F4. change (Z.of_nat (length (@nil (Z * runs))) mod 2 ^ 32 =? 0) with true. cbn [andb].
    destruct F5 as [(X & E & R)|(P & N & D)].
    - rewrite X. change (Z.of_nat (length (@nil (Z * runs))) mod 2 ^ 32 =? 0) with true. cbn [app]. rewrite !app_length, !le_enc_length.
      pose proof (runs_le _ R) as RL. rewrite E in RL. pose proof (run_bytes_length (k_pts c)) as RB. split; [|cbn [List.length]; lia].
      constructor; rewrite ?F4, ?X; cbn [List.length Z.of_nat]; [split; [lia|]|split; [lia|constructor]|split; [lia|constructor]|now left].
      rewrite Forall_forall in *. intros p Hp. specialize (R p Hp). unfold run1 in R. destruct (run_first_in (k_pts c) p Hp ltac:(lia)) as (_ & K). rewrite E in K. specialize (HB _ K). cbv beta in HB. unfold run_in. lia.
    - destruct (dinv_size pts _ 4 ids (k_xysub c) HS D) as (S1 & S2). pose proof (dinv_sub_in pts _ 4 eq_refl ids (k_xysub c) ltac:(lia) HB D) as SI.
      pose proof (dinv_nonempty _ _ _ _ _ D N) as NE. rewrite (Z.mod_small (lenB (k_xysub c))) by lia.
      replace (lenB (k_xysub c) =? 0) with false by (destruct (k_xysub c); [contradiction|cbn [List.length]; lia]). rewrite app_nil_r. cbn [app]. rewrite !app_length, !le_enc_length. split; [|lia].
      constructor; rewrite ?F4, ?P; cbn [List.length Z.of_nat]; [split; [lia|constructor]|split; [lia|constructor]|split; [lia|exact SI]|now left]. }
  destruct SZ as (S1 & S2). unfold pc_bytes. cbn [fst snd]. split; [|split; [|exact S2]].
  - split; [exact S1|]. cbn [fst snd]. rewrite F1, F2. pose proof (Z.mod_pos_bound k (gr_cy g)). split; [split; [apply Z.div_pos; lia|]|lia].
    apply Z.le_lt_trans with k; [apply Z.div_le_upper_bound; nia|nia].
  - split; unfold pc_bytes; cbn [fst snd]; [lia|]. rewrite F3. lia.
Qed.

Lemma cell_index pc : In pc l -> exists j, nth_error l j = Some pc /\ 0 <= Z.of_nat j < gr_cx g * gr_cy g.
Proof. intros H. apply In_nth_error in H. destruct H as (j & E). exists j. split; [exact E|]. assert (j < length l)%nat by (apply nth_error_Some; congruence). lia. Qed.
Lemma cells_good : Forall (good_cell pts) l /\ Forall fits32 l.
Proof.
  split; apply Forall_forall; intros pc H; destruct (cell_index pc H) as (j & E & B); destruct (ids_small (Z.of_nat j)) as (I1 & I2);
    destruct (fin_good _ _ pc (HF j pc E) B (ids_sorted _ _) I1 I2) as (A & C & _); assumption.
Qed.
Lemma div_mod_lex a b n : 0 < n -> a <= b -> lexle (a / n, a mod n) (b / n, b mod n).
Proof.
  intros Hn H. unfold lexle. cbn [fst snd]. pose proof (Z.div_le_mono a b n Hn H). destruct (Z.eq_dec (a / n) (b / n)) as [E|N]; [right; split; [exact E|]|lia].
  pose proof (Z.div_mod a n). pose proof (Z.div_mod b n). rewrite E in *. lia.
Qed.
Lemma cells_in_order : in_order l.
Proof.
  intros a c b E. pose proof (go_cy _ G). apply Forall_forall. intros e He. apply In_nth_error in He. destruct He as (i & Ei).
  assert (Hi : (i < length a)%nat) by (apply nth_error_Some; congruence).
  assert (N1 : nth_error l i = Some e) by (rewrite E, nth_error_app1 by exact Hi; exact Ei).
  assert (N2 : nth_error l (length a) = Some c) by (rewrite E, nth_error_app2, Nat.sub_diag by lia; reflexivity).
  destruct (HF _ _ N1) as [X1 Y1 _ _ _]. destruct (HF _ _ N2) as [X2 Y2 _ _ _].
  rewrite (surjective_pairing (fst e)), (surjective_pairing (fst c)), X1, Y1, X2, Y2. apply div_mod_lex; lia.
Qed.
Lemma cells_no_hidden : (forall k, 0 <= k -> ids_of k ps = [] -> lenB (ids_of (k + 1) ps) <= 13000) -> no_hidden l.
Proof.
  intros HH a e c b E NE _ BC. 
  assert (N1 : nth_error l (length a) = Some e) by (rewrite E, nth_error_app2, Nat.sub_diag by lia; reflexivity).
  assert (N2 : nth_error l (S (length a)) = Some c) by (rewrite E, nth_error_app2 by lia; replace (S (length a) - length a)%nat with 1%nat by lia; reflexivity).
  assert (B : Z.of_nat (S (length a)) < gr_cx g * gr_cy g). { rewrite <- HN. assert (S (length a) < length l)%nat by (apply nth_error_Some; congruence). lia. }
  pose proof (fc_num _ _ _ _ _ (HF _ _ N1)) as K. unfold nonempty in NE. rewrite K in NE.
  assert (I0 : ids_of (lenB a) ps = []) by (destruct (ids_of (lenB a) ps); [reflexivity|cbn [List.length] in NE; lia]).
  specialize (HH (lenB a) ltac:(lia) I0). replace (lenB a + 1) with (Z.of_nat (S (length a))) in HH by lia.
  destruct (ids_small (Z.of_nat (S (length a)))) as (I1 & I2). destruct (fin_good _ _ c (HF _ _ N2) ltac:(lia) (ids_sorted _ _) I1 I2) as (_ & _ & S). unfold big, vlr_max in BC. lia.
Qed.

(** ** The points of a cell a query returns *)
Variable q : query.
Definition wanted (x y i : Z) (divided : bool) : bool :=
  cell_interesting q x y && accepts q x y 0 (pt_at pts i) && (negb divided || subcell_interesting q (key g x y (pt_at pts i)) x y).
Definition is_divided (pc : placed_cell) : bool := match k_xysub (snd pc) with [] => false | _ => true end.

Lemma runs_items_in x y z test m i : In i (map fst (filter snd (runs_items pts q x y z test m))) <-> In i (expand m) /\ test && accepts q x y z (pt_at pts i) = true.
Proof.
  rewrite in_map_iff. unfold runs_items, expand. split.
  - intros ((j & b) & <- & H). apply filter_In in H. destruct H as (H & E). cbn [fst snd] in *. apply in_flat_map in H. destruct H as (r & Hr & H). unfold run_items in H. apply in_map_iff in H.
    destruct H as (k & E2 & Hk). pose proof (f_equal fst E2). pose proof (f_equal snd E2). cbn [fst snd] in *. subst k. split; [|congruence]. apply in_flat_map. eauto.
  - intros (H & E). apply in_flat_map in H. destruct H as (r & Hr & H). exists (i, test && accepts q x y z (pt_at pts i)). split; [reflexivity|]. apply filter_In. cbn [snd]. split; [|exact E].
    apply in_flat_map. exists r. split; [exact Hr|]. unfold run_items. apply in_map_iff. eauto.
Qed.
Lemma filter_flat_map {A B} (f : B -> bool) (h : A -> list B) m : filter f (flat_map h m) = flat_map (fun a => filter f (h a)) m.
Proof. induction m as [|a m IH]; [reflexivity|]. cbn [flat_map]. now rewrite filter_app, IH. Qed.
Lemma map_flat_map {A B C} (f : B -> C) (h : A -> list B) m : map f (flat_map h m) = flat_map (fun a => map f (h a)) m.
Proof. induction m as [|a m IH]; [reflexivity|]. cbn [flat_map]. now rewrite map_app, IH. Qed.
Lemma items_ids x y z test m : map fst (runs_items pts q x y z test m) = expand m.
Proof. unfold runs_items, expand. rewrite map_flat_map. apply flat_map_ext. intros r. unfold run_items. rewrite map_map. cbn [fst]. apply map_id. Qed.
Lemma nodup_map_filter {A B} (f : A -> bool) (h : A -> B) m : NoDup (map h m) -> NoDup (map h (filter f m)).
Proof.
  induction m as [|a m IH]; cbn [map filter]; intros H; [constructor|]. inversion H as [|? ? N1 N2]; subst. destruct (f a); [|now apply IH]. cbn [map]. constructor; [|now apply IH].
  intros K. apply N1. apply in_map_iff in K. destruct K as (b & <- & K). apply filter_In in K. apply in_map. tauto.
Qed.

Lemma conform_in ids k pc i : fin_cell g pts ids k pc ->
  In i (conform pts q pc) <-> In i ids /\ wanted (k / gr_cy g) (k mod gr_cy g) i (is_divided pc) = true.
Proof.
  intros [F1 F2 F3 F4 F5]. destruct pc as ((x, y), c). unfold conform, is_divided, wanted. cbn [fst snd] in *. subst x y. unfold cell_items. rewrite F4.
  set (x := k / gr_cy g) in *. set (y := k mod gr_cy g) in *.
  destruct F5 as [(X & E & R)|(P & N & D)].
  - rewrite X. rewrite runs_items_in, E. cbn [negb orb]. now rewrite andb_true_r.
  - destruct (dinv_member _ _ _ _ _ D) as (M1 & M2). pose proof (dinv_nonempty _ _ _ _ _ D N) as NE. destruct (k_xysub c) as [|s0 m0] eqn:EX; [contradiction|]. rewrite <- EX in *. clear s0 m0 EX NE. cbn [negb orb].
    unfold subs_items. rewrite filter_flat_map, map_flat_map, in_flat_map. split.
    + intros ((s & r) & Hs & H). cbn [fst snd] in H. apply runs_items_in in H. destruct H as (H1 & H2). destruct (M1 s r i Hs H1) as (Hi & Ki). split; [exact Hi|]. unfold kid in Ki. rewrite Ki.
      destruct (cell_interesting q x y), (subcell_interesting q s x y), (accepts q x y 0 (pt_at pts i)); try discriminate; reflexivity.
    + intros (Hi & W). destruct (M2 i Hi) as (r & H1 & H2). exists (kid pts (key g x y) i, r). split; [exact H1|]. cbn [fst snd]. apply runs_items_in. split; [exact H2|]. unfold kid.
      destruct (cell_interesting q x y), (subcell_interesting q (key g x y (pt_at pts i)) x y), (accepts q x y 0 (pt_at pts i)); try discriminate; reflexivity.
Qed.
Lemma conform_nodup ids k pc : fin_cell g pts ids k pc -> StronglySorted Z.lt ids -> NoDup (conform pts q pc).
Proof.
  intros [F1 F2 F3 F4 F5] HS. destruct pc as ((x, y), c). unfold conform. cbn [fst snd] in *. unfold cell_items. rewrite F4. apply nodup_map_filter. destruct F5 as [(X & E & R)|(P & N & D)].
  - rewrite X, items_ids, E. now apply sorted_nodup.
  - pose proof (dinv_nonempty _ _ _ _ _ D N) as NE. pose proof (dinv_all_nodup _ _ _ _ _ HS D) as ND. destruct (k_xysub c) as [|s0 m0] eqn:EX; [contradiction|]. rewrite <- EX in *. clear s0 m0 EX NE.
    unfold subs_items. rewrite map_flat_map. unfold all_ids in ND. erewrite flat_map_ext; [exact ND|]. intros s. apply items_ids.
Qed.

Theorem answer_in i : In i (flat_map (conform pts q) (filter nonempty l)) <->
  exists j pc, nth_error l j = Some pc /\ In i (ids_of (Z.of_nat j) ps) /\ wanted (Z.of_nat j / gr_cy g) (Z.of_nat j mod gr_cy g) i (is_divided pc) = true.
Proof.
  rewrite in_flat_map. split.
  - intros (pc & H & Hi). apply filter_In in H. destruct H as (H & _). destruct (cell_index pc H) as (j & E & B). exists j, pc. split; [exact E|]. now apply (conform_in _ _ _ i (HF j pc E)).
  - intros (j & pc & E & Hi & W). exists pc. split; [|apply (conform_in _ _ _ i (HF j pc E)); auto]. apply filter_In. split; [now apply nth_error_In in E|].
    unfold nonempty. rewrite (fc_num _ _ _ _ _ (HF j pc E)). destruct (ids_of (Z.of_nat j) ps); [destruct Hi|cbn [List.length]; lia].
Qed.
Lemma ids_unique k k' i : In i (ids_of k ps) -> In i (ids_of k' ps) -> k = k'.
Proof. unfold ids_of. rewrite !filter_In. intros (_ & A) (_ & B). unfold in_cell in *. destruct (nth (Z.to_nat i) ps None) as [(j, z)|]; [lia|discriminate]. Qed.
Theorem answer_nodup : NoDup (flat_map (conform pts q) (filter nonempty l)).
Proof.
  assert (K : forall m k, (forall j pc, nth_error m j = Some pc -> fin_cell g pts (ids_of (k + Z.of_nat j) ps) (k + Z.of_nat j) pc) -> NoDup (flat_map (conform pts q) (filter nonempty m))).
  { induction m as [|c m IH]; intros k H; [constructor|]. pose proof (H 0%nat c eq_refl) as H0. cbn [Z.of_nat] in H0. rewrite Z.add_0_r in H0.
    assert (H' : forall j pc, nth_error m j = Some pc -> fin_cell g pts (ids_of (k + 1 + Z.of_nat j) ps) (k + 1 + Z.of_nat j) pc).
    { intros j pc E. specialize (H (S j) pc E). replace (k + 1 + Z.of_nat j) with (k + Z.of_nat (S j)) by lia. exact H. }
    specialize (IH (k + 1) H'). cbn [filter]. destruct (nonempty c); [|exact IH]. cbn [flat_map]. apply nodup_app; [exact (conform_nodup _ _ _ H0 (ids_sorted _ _))|exact IH|].
    intros i A B. apply (conform_in _ _ _ i H0) in A. destruct A as (A & _). apply in_flat_map in B. destruct B as (pc & B1 & B2). apply filter_In in B1. destruct B1 as (B1 & _). apply In_nth_error in B1. destruct B1 as (j & E).
    apply (conform_in _ _ _ i (H' j pc E)) in B2. destruct B2 as (B2 & _). pose proof (ids_unique _ _ _ A B2). lia. }
  apply (K l 0). exact HF.
Qed.
End Cells.

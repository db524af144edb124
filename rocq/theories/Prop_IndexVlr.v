(** C41: the VLRs the index is written to, and what is decoded from them. *)
From Coq Require Import ZArith List Bool Lia.
From Coq Require Import ZifyBool ZifyNat.
Import ListNotations.
From Verif Require Import Outcome Bytes CStr Float64 Vlr_Model Bounds_Model Writer_Proofs Chipper_Spec Chipper_Lists Index_Cell Index_Temp Index_Scan Index_Out Index_Query Index_Spec Index_Items Index_Groups Index_Filter Index_Load.
Local Open Scope Z_scope.
Local Notation length := List.length (only parsing).

(** ** Specification *)

(** the point ids the cell was given, in the order of its records: those of its
    z parts if it has any, else those of its quarters, else its own *)
Definition cell_ids (c : cell) : list Z :=
  match k_zsub c, k_xysub c with
  | [], [] => expand (k_pts c)
  | [], s => flat_map (fun p => expand (snd p)) s
  | s, _ => flat_map (fun p => expand (snd p)) s
  end.
Definition has_points (c : Z * Z * cell) : bool := negb (k_num (snd c) =? 0).

(** A cell with its column and row that can be encoded: at most 255 points a
    record, ids of points of the file, parts in one way only, and sizes and
    numbers that fit their 32-bit fields. *)
Definition run_fits (n : Z) (r : Z * Z) : Prop := 0 <= fst r /\ 0 <= snd r <= 255 /\ fst r + snd r <= n.
Definition runs_fit (n : Z) (m : runs) : Prop := lenB m < 2 ^ 32 /\ Forall (run_fits n) m.
Definition subs_fit (n : Z) (s : subs) : Prop := lenB s < 2 ^ 32 /\ Forall (fun p => 0 <= fst p < 2 ^ 32 /\ runs_fit n (snd p)) s.
Record encodable (n : Z) (pc : Z * Z * cell) : Prop := {
  en_x : 0 <= fst (fst pc) < 2 ^ 31;
  en_y : 0 <= snd (fst pc) < 2 ^ 31;
  en_num : 0 <= k_num (snd pc) < 2 ^ 32;
  en_pts : runs_fit n (k_pts (snd pc));
  en_z : subs_fit n (k_zsub (snd pc));
  en_xy : subs_fit n (k_xysub (snd pc));
  en_one : k_zsub (snd pc) = [] \/ k_xysub (snd pc) = [];
  en_size : lenB (cell_bytes (fst (fst pc)) (snd (fst pc)) (snd pc)) < 2 ^ 32 - 24 }.

Lemma encodable_ok pts pc : encodable (lenB pts) pc -> fits32 pc /\ good_cell pts pc.
Proof.
  intros [X Y N (P1 & P2) (Z1 & Z2) (S1 & S2) O B]. split; [split; [unfold pc_bytes; lia|exact N]|]. split; [|split; assumption].
  constructor; [split; assumption|split; [exact Z1|]|split; [exact S1|]|exact O].
  - eapply Forall_impl; [|exact Z2]. intros p (A & C & D). split; [exact A|]. split; assumption.
  - eapply Forall_impl; [|exact S2]. intros p (A & C & D). split; [exact A|]. split; assumption.
Qed.

(** a query with every filter switched off *)
Definition all_off (q : query) : Prop := ax_off (q_x q) = true /\ ax_off (q_y q) = true /\ ax_off (q_z q) = true.

Lemma accepts_off q x y z p : all_off q -> accepts q x y z p = true.
Proof. intros (A & B & C). unfold accepts, axis_accepts. now rewrite A, B, C. Qed.
Lemma border_off a c : ax_off a = true -> in_border a c = true. Proof. intros H. unfold in_border. now rewrite H. Qed.
Lemma half_off a c l : ax_off a = true -> half_good a c l = true. Proof. intros H. unfold half_good. now rewrite H. Qed.
Lemma runs_off pts q x y z m : all_off q -> map fst (filter snd (runs_items pts q x y z true m)) = expand m.
Proof.
  intros O. unfold runs_items, expand. induction m as [|r m IH]; [reflexivity|]. cbn [flat_map]. rewrite filter_app, map_app, IH. f_equal. clear IH.
  unfold run_items. generalize (zseq (fst r) (Z.to_nat (snd r))). intros l. induction l as [|i l IH]; [reflexivity|]. cbn [map filter snd fst]. rewrite (accepts_off q) at 1 by exact O. change (true && true) with true. cbv iota. cbn [map fst]. f_equal. exact IH.
Qed.
Lemma subs_off pts q x y zof m : all_off q -> map fst (filter snd (subs_items pts q x y zof (fun _ => true) m)) = flat_map (fun p => expand (snd p)) m.
Proof. intros O. unfold subs_items. induction m as [|s m IH]; [reflexivity|]. cbn [flat_map]. rewrite filter_app, map_app, IH. f_equal. now apply runs_off. Qed.
Lemma subs_ext pts q x y zof f g m : (forall s, f s = g s) -> subs_items pts q x y zof f m = subs_items pts q x y zof g m.
Proof. intros H. unfold subs_items. apply flat_map_ext. intros a. now rewrite H. Qed.
Lemma conform_all pts q pc : all_off q -> conform pts q pc = cell_ids (snd pc).
Proof.
  intros O. pose proof O as (A & B & C). destruct pc as ((x, y), c). unfold conform, cell_items, cell_ids. cbn [fst snd]. unfold cell_interesting. rewrite !border_off by assumption. cbn [andb].
  destruct (k_zsub c) as [|z zs].
  - destruct (k_xysub c) as [|s ss]; [now apply runs_off|].
    rewrite (subs_ext _ _ _ _ _ _ (fun _ => true)); [now apply subs_off|]. intros w. unfold subcell_interesting. now rewrite !half_off.
  - rewrite (subs_ext _ _ _ _ _ _ (fun _ => true)); [now apply subs_off|]. intros w. unfold zcell_interesting. now apply border_off.
Qed.

(** ** The theorem *)

(** Whatever the cells contain and however many VLRs they take, a query without
    filters over the VLRs that were written returns the ids the cells were given,
    those of every cell that counts points, in order.  [h] is what the index says
    about itself; the query must be one the program can convert to cell numbers
    and whose bounds meet those of the index.  Missing: the same for queries with
    a filter, which is false ([C41_hidden_refuted]). *)
Theorem C41_decode_partial (pts : list coords) (base : list vlr) (h : ihead) (cells : list (Z * Z * cell)) (ix : idx) (q q' : query) (cur : Z) :
  lenB pts < 2 ^ 31 -> forallb not_index base = true -> ih_data (ix_h ix) = 43 ->
  ihead_ok h -> ih_data h = 43 -> with_counts h = true -> Forall (encodable (lenB pts)) cells ->
  all_off q -> set_cell_bounds (idx_of h) q = Ok q' -> bounds_intersects (index_bounds h) (filter_bounds q) = Ok true ->
  exists vlrs s, write_index base h cells = Ok vlrs /\ index_filter pts vlrs ix q cur None = Ok (idx_of h, q', s) /\
    fs_res s = flat_map (fun pc => cell_ids (snd pc)) (filter has_points cells).
Proof.
  intros HL HB HI HO HD HV HE O HQ HM. destruct (set_bounds_off _ _ _ HQ) as (A & B & C & D).
  assert (O' : all_off q') by (destruct O as (? & ? & ?); unfold all_off; rewrite A, B, C; auto).
  destruct (filter_written pts base h cells ix q q' cur HL HB HI HO HD HV) as (vlrs & s & E1 & E2 & E3).
  - eapply Forall_impl; [|exact HE]. intros c Hc. now apply encodable_ok in Hc.
  - eapply Forall_impl; [|exact HE]. intros c Hc. now apply encodable_ok in Hc.
  - right. destruct O as (? & ? & _). now split.
  - exact HQ.
  - rewrite D. exact HM.
  - exists vlrs, s. split; [exact E1|]. split; [exact E2|]. rewrite E3. change has_points with nonempty. apply flat_map_ext. intros pc. now apply conform_all.
Qed.

(** The VLRs: as long as no cell takes more than one (65511 bytes), each has the
    length it says, so that it can be stored in a file and read back (C13). *)
Definition small (pc : Z * Z * cell) : Prop := lenB (cell_bytes (fst (fst pc)) (snd (fst pc)) (snd pc)) <= 65511.
Lemma put_string_length s : lenB (put_string s) <= 514.
Proof. unfold put_string. rewrite app_length, le_enc_length, app_length. cbn [List.length]. pose proof (until_nul_length (firstn 511 s)). pose proof (firstn_le_length 511 s). lia. Qed.
Lemma ihead_length h : lenB (ihead_bytes h) <= 1612.
Proof.
  unfold ihead_bytes. rewrite !app_length, !le_enc_length. pose proof (put_string_length (ih_author h)). pose proof (put_string_length (ih_comment h)). pose proof (put_string_length (ih_date h)). lia.
Qed.
Theorem C41_lengths (n : Z) (base : list vlr) (h : ihead) (cells : list (Z * Z * cell)) :
  Forall (encodable n) cells -> Forall small cells -> Forall vlr_consistent base ->
  exists vlrs, write_index base h cells = Ok vlrs /\ Forall (fun v => v_size v = lenB (v_data v)) vlrs.
Proof.
  intros HE HS HB. destruct (write_index_ok base h cells) as (gs & vs & E & EN & EC & GF & _).
  { eapply Forall_impl; [|exact HE]. intros c [X Y N P Z S O B]. split; [unfold pc_bytes; lia|exact N]. }
  eexists. split; [exact E|]. apply Forall_app. split; [exact HB|]. apply Forall_app. split.
  - constructor; [|constructor]. reflexivity.
  - assert (SM : Forall (fun g => g_size g <= vlr_max) gs).
    { rewrite Forall_forall in *. intros g Hg. destruct (GF g Hg) as (_ & _ & _ & _ & K). destruct (Z_le_gt_dec (g_size g) vlr_max) as [L|L]; [exact L|]. destruct (K ltac:(lia)) as (c & EG).
      assert (IC : In c cells). { assert (X : In c (filter nonempty cells)) by (rewrite <- EC; unfold cells_of; apply in_flat_map; exists g; split; [exact Hg|rewrite EG; now left]). apply filter_In in X. tauto. }
      specialize (HS c IC). unfold small in HS. unfold g_size, g_bytes in *. rewrite EG in *. cbn [flat_map] in *. rewrite app_nil_r in *. unfold pc_bytes, vlr_max in *. lia. }
    clear -EN SM. induction EN as [|g vs gs rest G EN IH]; [constructor|]. apply Forall_app. split; [|exact (IH (Forall_inv_tail SM))]. pose proof (Forall_inv SM) as L. cbv beta in L.
    inversion G as [pad Hp Hp4|ws Hp Hc]; subst; [|lia]. constructor; [|constructor]. unfold data_vlr. cbn [v_size v_data]. pose proof (g_data_length g) as LG. rewrite app_length. unfold vlr_max in Hp.
    assert (0 <= g_size g) by (unfold g_size; lia). rewrite Z.mod_small by lia. lia.
Qed.

(** ** Samples *)
Definition fz (n : Z) : f64 := f64_of_Z n.
Definition span (a b : Z) : range := mkRange (fz a) (fz b).
Definition head_2x1 : ihead := mkIHead 1 2 [76] [] [50] (fz 0) (fz 2) (fz 0) (fz 1) (fz 0) (fz 1) 43 3 2 1 1.
Definition ix_empty : idx := mkIdx (mkIHead 1 2 [] [] [] f64_zero f64_zero f64_zero f64_zero f64_zero f64_zero 43 0 0 0 0) f64_zero f64_zero f64_zero.
(** [n] points, every other one, each a record of its own *)
Definition sparse (n : nat) : cell := mkCell 0 (Z.of_nat n) 0 0 (map (fun i => (2 * i, 1)) (zseq 0 n)) [] [].
(** 300 points in a row, and 40 in two quarters *)
Definition dense : cell := mkCell 0 300 0 0 [(0, 255); (255, 45)] [] [].
Definition split : cell := mkCell 0 40 0 0 [] [] [(0, [(300, 30)]); (3, [(330, 10)])].
Definition is_ok {A} (o : outcome A) : bool := match o with Ok _ => true | _ => false end.
Definition q_off : query := mkQuery (axis_of (span 0 2) true) (axis_of (span 0 1) true) (axis_of (span 0 1) true).

Lemma head_2x1_ok : ihead_ok head_2x1.
Proof. unfold head_2x1. constructor; cbn [ih_major ih_minor ih_author ih_comment ih_date ih_data ih_count ih_cx ih_cy ih_cz]; unfold no_nul; cbn [In List.length]; lia. Qed.
Lemma sparse_bytes x y n : lenB (cell_bytes x y (sparse n)) = 28 + 5 * Z.of_nat n.
Proof.
  unfold cell_bytes, sparse. cbn [k_num k_minz k_maxz k_pts k_zsub k_xysub get_num_records get_num_sub_records get_num_z_records]. unfold get_num_records, get_num_sub_records, get_num_z_records. cbn [k_pts k_zsub k_xysub].
  change (Z.of_nat (length (@nil (Z * runs))) mod 2 ^ 32 =? 0) with true. cbn [andb app]. rewrite !app_length, !le_enc_length. 
  assert (RL : forall m, lenB (run_bytes m) = 5 * lenB m). { induction m as [|r m IH]; [reflexivity|]. change (run_bytes (r :: m)) with ((le_enc 4 (fst r) ++ le_enc 1 (snd r)) ++ run_bytes m). rewrite !app_length, !le_enc_length. cbn [List.length]. lia. }
  pose proof (RL (map (fun i => (2 * i, 1)) (zseq 0 n))) as K. rewrite map_length, zseq_length in K. lia.
Qed.
Lemma sparse_ok x y n : 0 <= x < 2 ^ 31 -> 0 <= y < 2 ^ 31 -> Z.of_nat n < 100000000 -> encodable (2 * Z.of_nat n) (x, y, sparse n).
Proof.
  intros X Y N. assert (E : subs_fit (2 * Z.of_nat n) []) by (split; [cbn [List.length]; lia|constructor]).
  constructor; cbn [fst snd]; try assumption; [cbn [sparse k_num]; lia| |now left|rewrite sparse_bytes; lia].
  unfold sparse. cbn [k_pts]. split; [rewrite map_length, zseq_length; lia|]. apply Forall_forall. intros r Hr. apply in_map_iff in Hr. destruct Hr as (i & <- & Hi). apply zseq_In in Hi. unfold run_fits. cbn [fst snd]. lia.
Qed.
Definition two_cells : list (Z * Z * cell) := [(0, 0, dense); (1, 0, split)].
Definition file_400 : list coords := repeat pt0 400.

(** the hypotheses of C41_decode_partial are met, also by a cell of 14000 records,
    which takes two VLRs *)
Example C41_meets : lenB file_400 < 2 ^ 31 /\ ihead_ok head_2x1 /\ Forall (encodable (lenB file_400)) two_cells /\ all_off q_off /\
  is_ok (set_cell_bounds (idx_of head_2x1) q_off) = true /\ bounds_intersects (index_bounds head_2x1) (filter_bounds q_off) = Ok true /\
  Forall small two_cells /\
  (forall n, n = 14000 -> encodable (2 * n) (0, 0, sparse (Z.to_nat n)) /\ ~ small (0, 0, sparse (Z.to_nat n))).
Proof.
  split; [unfold file_400; rewrite repeat_length; lia|]. split; [exact head_2x1_ok|].
  assert (EN : Forall (encodable (lenB file_400)) two_cells /\ Forall small two_cells).
  { assert (L : lenB file_400 = 400) by (unfold file_400; rewrite repeat_length; reflexivity). rewrite L. split.
    - unfold two_cells. constructor; [|constructor; [|constructor]].
      + constructor; cbn [fst snd]; try lia; try (cbn [dense k_num]; lia); try (split; [cbn [dense k_zsub k_xysub k_pts List.length]; lia|]); try (now left); unfold dense, k_pts, k_zsub, k_xysub; try constructor; try (unfold run_fits; cbn [fst snd]; lia); try (constructor; [unfold run_fits; cbn [fst snd]; lia|constructor]).
      + constructor; cbn [fst snd]; try lia; try (cbn [split k_num]; lia); try (split; [cbn [split k_zsub k_xysub k_pts List.length]; lia|]); try (now left); unfold split, k_pts, k_zsub, k_xysub; try constructor; cbn [fst snd]; try (split; [lia|]).
        * split; [cbn [List.length]; lia|]. constructor; [unfold run_fits; cbn [fst snd]; lia|constructor].
        * constructor; [|constructor]. cbn [fst snd]. split; [lia|]. split; [cbn [List.length]; lia|]. constructor; [unfold run_fits; cbn [fst snd]; lia|constructor].
    - unfold two_cells. constructor; [|constructor; [|constructor]]; unfold small; vm_compute; discriminate. }
  split; [exact (proj1 EN)|]. split; [repeat split|]. split; [vm_compute; reflexivity|]. split; [vm_compute; reflexivity|]. split; [exact (proj2 EN)|].
  intros n ->. split.
  - replace (2 * 14000) with (2 * Z.of_nat (Z.to_nat 14000)) by (rewrite Z2Nat.id; lia). apply sparse_ok; lia.
  - unfold small. cbn [fst snd]. rewrite sparse_bytes, Z2Nat.id by lia. lia.
Qed.

(** build and query in one *)
Definition query_of (pts : list coords) (h : ihead) (cells : list (Z * Z * cell)) (q : query) : outcome (list Z) :=
  let! vlrs := write_index [] h cells in
  let! (_, _, s) := index_filter pts vlrs ix_empty q 0 None in Ok (fs_res s).
Example C41_sample : query_of file_400 head_2x1 two_cells q_off = Ok (zseq 0 340).
Proof. vm_compute. reflexivity. Qed.

(** ** Where the property fails *)

(** "A query with a box decodes the same ids": a cell that takes more than one VLR
    and comes right after an empty one is skipped, because its VLR says it covers
    the empty cell.  All the points below are at x = 1.5, inside the box 1..2; the
    cell holding them is the second of two columns over 0..2. *)
Definition q_box : query := mkQuery (axis_of (span 1 2) false) (axis_of (span 0 1) false) (axis_of (span 0 1) false).
Definition pt_mid : coords := (f64_div (fz 3) (fz 2), f64_half, f64_half).
Theorem C41_hidden_refuted : exists (n : nat) (pts : list coords) (cells : list (Z * Z * cell)),
  pts = repeat pt_mid n /\ Forall (encodable (lenB pts)) cells /\ in_order cells /\
  between (span 1 2) (c_x pt_mid) && between (span 0 1) (c_y pt_mid) && between (span 0 1) (c_z pt_mid) = true /\
  lenB (flat_map (fun pc => cell_ids (snd pc)) (filter has_points cells)) = 14000 /\
  query_of pts head_2x1 cells q_box = Ok [].
Proof.
  exists (Z.to_nat 28000), (repeat pt_mid (Z.to_nat 28000)), [(0, 0, cell0); (1, 0, sparse (Z.to_nat 14000))].
  assert (L : lenB (repeat pt_mid (Z.to_nat 28000)) = 28000) by (rewrite repeat_length, Z2Nat.id; lia). rewrite L.
  split; [reflexivity|]. split; [|split; [|split; [vm_compute; reflexivity|split; [vm_compute; reflexivity|vm_compute; reflexivity]]]].
  - constructor; [|constructor; [|constructor]].
    + constructor; cbn [fst snd]; try lia; try (cbn [cell0 k_num]; lia); try (split; [cbn [List.length cell0 k_pts k_zsub k_xysub]; lia|constructor]); [now left|vm_compute; reflexivity].
    + replace 28000 with (2 * Z.of_nat (Z.to_nat 14000)) by (rewrite Z2Nat.id; lia). apply sparse_ok; lia.
  - intros a c b E. destruct a as [|e a]; [constructor|]. destruct a as [|e' a].
    + constructor; [|constructor]. apply (f_equal (fun l => (fst (nth 0 l (0, 0, cell0)), fst (nth 1 l (0, 0, cell0))))) in E. cbn [app nth fst] in E. apply (f_equal fst) in E as E1. apply (f_equal snd) in E as E2. cbn [fst snd] in E1, E2. rewrite <- E1, <- E2. unfold lexle. cbn [fst snd]. lia.
    + apply (f_equal (fun l => length l)) in E. cbn [List.length app] in E. rewrite app_length in E. cbn [List.length] in E. lia.
Qed.

(** "Every VLR has as many bytes of data as it says": the last VLR of a cell that
    takes several has 65535 whatever it says, so storing it in a file displaces
    everything behind it. *)
Lemma exists_vlr (o : outcome (list vlr)) (f : vlr -> bool) : match o with Ok l => existsb f l | _ => false end = true -> exists l v, o = Ok l /\ In v l /\ f v = true.
Proof. destruct o as [l| | ]; try discriminate. intros H. apply existsb_exists in H. destruct H as (v & I & E). eauto. Qed.
Definition short (v : vlr) : bool := v_size v <? lenB (v_data v).
Lemma short_lt v : short v = true -> v_size v < lenB (v_data v). Proof. apply Z.ltb_lt. Qed.
Definition one_sparse : list (Z * Z * cell) := [(0, 0, sparse (Z.to_nat 14000))].
Lemma one_sparse_ok : Forall (encodable 28000) one_sparse.
Proof. constructor; [|constructor]. replace 28000 with (2 * Z.of_nat (Z.to_nat 14000)) by lia. apply sparse_ok; lia. Qed.
Lemma one_sparse_short : match write_index [] head_2x1 one_sparse with Ok l => existsb short l | _ => false end = true.
Proof. vm_compute. reflexivity. Qed.
Theorem C41_length_refuted : exists n cells vlrs v, Forall (encodable n) cells /\ write_index [] head_2x1 cells = Ok vlrs /\ In v vlrs /\ v_size v < lenB (v_data v).
Proof.
  destruct (exists_vlr (write_index [] head_2x1 one_sparse) short one_sparse_short) as (vlrs & v & E & I & L).
  exists 28000, one_sparse, vlrs, v. exact (conj one_sparse_ok (conj E (conj I (short_lt v L)))).
Qed.

(** "Reading the index of any file is defined": a header record with a string
    longer than the buffer for it writes behind that buffer, and a data record that
    says it goes on in VLRs that are not there reads behind the list of VLRs. *)
Definition bad_head : vlr := mkVlr ([1; 2] ++ le_enc 2 600 ++ repeat 65 (Z.to_nat 600)) (pad_to 32 []) (pad_to 16 liblas_user) 43707 42 604.
Definition bad_data : vlr := data_vlr 24 (g_head6 0 0 1 0 100 1).
Theorem C41_wild_refuted : index_filter [] [bad_head] ix_empty q_off 0 None = UB UBOutOfBounds /\
  index_filter [] [head_vlr head_2x1; bad_data] ix_empty q_off 0 None = UB UBOutOfBounds.
Proof. split; vm_compute; reflexivity. Qed.

Print Assumptions C41_decode_partial.
Print Assumptions C41_lengths.
Print Assumptions C41_hidden_refuted.
Print Assumptions C41_length_refuted.
Print Assumptions C41_wild_refuted.

(** Proofs about the column buffers of las2col. *)
From Coq Require Import ZArith List Bool Lia String Ascii.
From Coq Require Import ZifyBool ZifyNat.
Import ListNotations.
From Flocq Require Import Core BinarySingleNaN Binary Bits.
From Verif Require Import Outcome Bytes Float64 Classif_Model Schema_Model Header_Model Vlr_Model Point_Model Point_Spec Point_Api Point_Proofs Coord_Api Coord_Header Stream_Model Stream_Proofs IO_Spec
  Reader_Model Reader_Spec Reader_Api Reader_Open Reader_Hist Prop_Reader Iter_Proofs Rewrite_Proofs Prop_Rewrite Las2las_Summary Las2las_Points Las2las_Loop Las2las_Main Ts2las_Proofs Cols_Model Cols_Spec.
Local Open Scope Z_scope.
Local Notation length := List.length (only parsing).

(** ** Morton codes *)
Lemma shl64_lxor a b k : 0 <= k -> shl64 (Z.lxor a b) k = Z.lxor (shl64 a k) (shl64 b k).
Proof.
  intros K. unfold shl64. rewrite Z.shiftl_lxor. apply Z.bits_inj'. intros n Hn.
  rewrite Z.lxor_spec, !Z.land_spec, Z.lxor_spec. now destruct (Z.testbit (Z.shiftl a k) n), (Z.testbit (Z.shiftl b k) n), (Z.testbit (2 ^ 64 - 1) n).
Qed.
Lemma land_lxor a b m : Z.land (Z.lxor a b) m = Z.lxor (Z.land a m) (Z.land b m).
Proof.
  apply Z.bits_inj'. intros n Hn. rewrite Z.lxor_spec, !Z.land_spec, Z.lxor_spec.
  now destruct (Z.testbit a n), (Z.testbit b n), (Z.testbit m n).
Qed.
Lemma spread_lxor a b k m : 0 <= k -> spread (Z.lxor a b) k m = Z.lxor (spread a k m) (spread b k m).
Proof.
  intros K. unfold spread. rewrite shl64_lxor by exact K. rewrite <- land_lxor. f_equal.
  rewrite !Z.lxor_assoc. f_equal. rewrite <- !Z.lxor_assoc. f_equal. apply Z.lxor_comm.
Qed.
Lemma expand_lxor a b : expand1 (Z.lxor a b) = Z.lxor (expand1 a) (expand1 b).
Proof. unfold expand1. rewrite land_lxor, !spread_lxor by lia. reflexivity. Qed.

Lemma lt_S_nat (n k : nat) : (k < S n -> k = n \/ k < n)%nat. Proof. lia. Qed.
Lemma expand_pow k : (k < 31)%nat -> expand1 (2 ^ Z.of_nat k) = 2 ^ (2 * Z.of_nat k).
Proof. intros H. do 31 (destruct k as [|k]; [vm_compute; reflexivity|]). lia. Qed.
Lemma mod_step a n : 0 <= n -> a mod 2 ^ (n + 1) = Z.lxor (a mod 2 ^ n) (if Z.testbit a n then 2 ^ n else 0).
Proof.
  intros Hn. apply Z.bits_inj'. intros i Hi. rewrite Z.lxor_spec.
  assert (P : Z.testbit (if Z.testbit a n then 2 ^ n else 0) i = Z.testbit a n && (i =? n)).
  { destruct (Z.testbit a n); [|now rewrite Z.bits_0]. rewrite Z.pow2_bits_eqb by lia. cbn [andb]. apply Z.eqb_sym. }
  rewrite P. destruct (Z.lt_ge_cases i n) as [L|G].
  - rewrite !Z.mod_pow2_bits_low by lia. replace (i =? n) with false by lia. now rewrite andb_false_r, xorb_false_r.
  - rewrite (Z.mod_pow2_bits_high _ n) by lia. destruct (Z.eqb_spec i n) as [->|N].
    + rewrite Z.mod_pow2_bits_low by lia. now destruct (Z.testbit a n).
    + rewrite Z.mod_pow2_bits_high by lia. now rewrite andb_false_r.
Qed.
Lemma expand_mod a n : (n <= 31)%nat -> 
  0 <= expand1 (a mod 2 ^ Z.of_nat n) /\
  forall i, 0 <= i -> Z.testbit (expand1 (a mod 2 ^ Z.of_nat n)) i = Z.even i && (i / 2 <? Z.of_nat n) && Z.testbit a (i / 2).
Proof.
  induction n as [|n IH]; intros L.
  - change (2 ^ Z.of_nat 0) with 1. rewrite Z.mod_1_r. change (expand1 0) with 0. split; [lia|]. intros i Hi. rewrite Z.bits_0.
    pose proof (Z.div_pos i 2 Hi ltac:(lia)). replace (i / 2 <? Z.of_nat 0) with false by lia. now rewrite andb_false_r.
  - destruct (IH ltac:(lia)) as [P B]. rewrite Nat2Z.inj_succ. change (Z.succ (Z.of_nat n)) with (Z.of_nat n + 1).
    rewrite mod_step by lia. rewrite expand_lxor.
    assert (E : expand1 (if Z.testbit a (Z.of_nat n) then 2 ^ Z.of_nat n else 0) = if Z.testbit a (Z.of_nat n) then 2 ^ (2 * Z.of_nat n) else 0).
    { destruct (Z.testbit a (Z.of_nat n)); [apply expand_pow; lia|reflexivity]. }
    rewrite E. split; [apply Z.lxor_nonneg; split; intros _; [destruct (Z.testbit a (Z.of_nat n)); lia|exact P]|].
    intros i Hi. rewrite Z.lxor_spec, (B i Hi).
    pose proof (Z.div_mod i 2 ltac:(lia)) as DM. pose proof (Z.mod_pos_bound i 2 ltac:(lia)) as MB.
    assert (EV : Z.even i = (i mod 2 =? 0)) by (rewrite Zmod_even; destruct (Z.even i); reflexivity).
    assert (P2 : Z.testbit (if Z.testbit a (Z.of_nat n) then 2 ^ (2 * Z.of_nat n) else 0) i = Z.testbit a (Z.of_nat n) && (i =? 2 * Z.of_nat n)).
    { destruct (Z.testbit a (Z.of_nat n)); [|now rewrite Z.bits_0]. rewrite Z.pow2_bits_eqb by lia. cbn [andb]. apply Z.eqb_sym. }
    rewrite P2, EV. destruct (Z.eqb_spec i (2 * Z.of_nat n)) as [->|N].
    + replace (2 * Z.of_nat n / 2) with (Z.of_nat n) by (rewrite Z.mul_comm, Z.div_mul; lia).
      replace ((2 * Z.of_nat n) mod 2) with 0 by (rewrite Z.mul_comm, Z.mod_mul; lia).
      replace (Z.of_nat n <? Z.of_nat n) with false by lia. replace (Z.of_nat n <? Z.of_nat n + 1) with true by lia.
      cbn. now destruct (Z.testbit a (Z.of_nat n)).
    + rewrite andb_false_r, xorb_false_r. destruct (Z.eqb_spec (i mod 2) 0) as [M|M]; [|reflexivity]. cbn [andb].
      replace (i / 2 <? Z.of_nat n + 1) with (i / 2 <? Z.of_nat n) by lia. reflexivity.
Qed.
Lemma expand_31 a : expand1 a = expand1 (a mod 2 ^ 31).
Proof.
  unfold expand1. replace (Z.land (a mod 2 ^ 31) 0x7fffffff) with (Z.land a 0x7fffffff); [reflexivity|].
  change 0x7fffffff with (Z.ones 31). rewrite !Z.land_ones by lia. now rewrite Z.mod_mod by lia.
Qed.
Lemma expand_bits a : 0 <= expand1 a /\ forall i, 0 <= i -> Z.testbit (expand1 a) i = Z.even i && (i / 2 <? 31) && Z.testbit a (i / 2).
Proof. rewrite expand_31. exact (expand_mod a 31 (le_n 31)). Qed.
Lemma bits_below z n : 0 <= n -> 0 <= z -> (forall i, n <= i -> Z.testbit z i = false) -> z < 2 ^ n.
Proof.
  intros Hn P B. destruct (Z.lt_ge_cases z (2 ^ n)) as [L|G]; [exact L|exfalso].
  assert (0 < 2 ^ n) by (apply Z.pow_pos_nonneg; lia).
  assert (L : n <= Z.log2 z) by (apply Z.log2_le_pow2; lia).
  pose proof (Z.bit_log2 z ltac:(lia)) as T. rewrite B in T by exact L. discriminate.
Qed.
Lemma even_mod k : Z.even k = (k mod 2 =? 0).
Proof. rewrite Zmod_even. destruct (Z.even k); reflexivity. Qed.
Lemma expand_range a : 0 <= expand1 a < 2 ^ 61.
Proof.
  destruct (expand_bits a) as [P B]. split; [exact P|]. apply bits_below; [lia|exact P|]. intros k Hk. rewrite B by lia.
  rewrite even_mod. pose proof (Z.div_mod k 2 ltac:(lia)) as DM. pose proof (Z.mod_pos_bound k 2 ltac:(lia)) as MB.
  destruct (Z.eqb_spec (k mod 2) 0) as [M|M]; [|reflexivity]. replace (k / 2 <? 31) with false by lia. reflexivity.
Qed.
Lemma double_0 z : Z.testbit (2 * z) 0 = false. Proof. destruct z; reflexivity. Qed.
Definition code_of (x y : Z) : Z := (shl64 (expand1 x) 1 + expand1 y) mod 2 ^ 64.
Lemma code_interleaved x y : interleaved x y (code_of x y).
Proof.
  unfold code_of. destruct (expand_bits x) as [Px Bx]. destruct (expand_bits y) as [Py By].
  pose proof (expand_range x) as Rx. pose proof (expand_range y) as Ry.
  assert (S : shl64 (expand1 x) 1 = 2 * expand1 x).
  { unfold shl64. rewrite Z.shiftl_mul_pow2 by lia. change (2 ^ 64 - 1) with (Z.ones 64). rewrite Z.land_ones by lia.
    change (2 ^ 61) with 2305843009213693952 in Rx. change (2 ^ 64) with 18446744073709551616. change (2 ^ 1) with 2. rewrite Z.mod_small by lia. lia. }
  assert (D : Z.land (2 * expand1 x) (expand1 y) = 0).
  { apply Z.bits_inj'. intros i Hi. rewrite Z.land_spec, Z.bits_0, By by exact Hi. destruct (Z.even i) eqn:E; [|now rewrite andb_comm].
    destruct (Z.eq_dec i 0) as [->|N]; [now rewrite double_0|].
    replace i with (Z.succ (i - 1)) at 1 by lia. rewrite Z.double_bits_succ. rewrite Bx by lia.
    replace (Z.even (i - 1)) with false; [reflexivity|]. rewrite Z.even_sub, E. reflexivity. }
  rewrite S, Z.mod_small.
  2:{ change (2 ^ 61) with 2305843009213693952 in *. change (2 ^ 64) with 18446744073709551616. lia. }
  rewrite Z.add_nocarry_lxor by exact D. split.
  - assert (N0 : 0 <= Z.lxor (2 * expand1 x) (expand1 y)) by (apply Z.lxor_nonneg; lia). split; [exact N0|].
    apply bits_below; [lia|exact N0|]. intros i Hi. rewrite Z.lxor_spec. replace i with (Z.succ (i - 1)) at 1 by lia.
    rewrite Z.double_bits_succ. rewrite By by lia. rewrite Bx by lia. rewrite !even_mod.
    pose proof (Z.div_mod i 2 ltac:(lia)). pose proof (Z.mod_pos_bound i 2 ltac:(lia)).
    pose proof (Z.div_mod (i - 1) 2 ltac:(lia)). pose proof (Z.mod_pos_bound (i - 1) 2 ltac:(lia)).
    replace (i / 2 <? 31) with false by lia.
    destruct (Z.eqb_spec ((i - 1) mod 2) 0) as [M|M]; [|destruct (i mod 2 =? 0); reflexivity].
    replace ((i - 1) / 2 <? 31) with false by lia. destruct (i mod 2 =? 0); reflexivity.
  - intros i Hi. rewrite !Z.lxor_spec. split.
    + rewrite By by lia. replace (2 * i / 2) with i by (rewrite Z.mul_comm, Z.div_mul; lia). rewrite Z.even_mul. cbn [orb Z.even].
      replace (i <? 31) with true by lia. cbn [andb].
      destruct (Z.eq_dec i 0) as [->|N]; [change (2 * 0) with 0; rewrite double_0; destruct (Z.testbit y 0); reflexivity|].
      replace (2 * i) with (Z.succ (2 * i - 1)) at 1 by lia. rewrite Z.double_bits_succ. rewrite Bx by lia.
      replace (Z.even (2 * i - 1)) with false by (rewrite Z.even_sub, Z.even_mul; reflexivity). destruct (Z.testbit y i); reflexivity.
    + rewrite By by lia. replace (Z.even (2 * i + 1)) with false by (rewrite Z.even_add, Z.even_mul; reflexivity). cbn [andb].
      rewrite xorb_false_r. replace (2 * i + 1) with (Z.succ (2 * i)) by lia. rewrite Z.double_bits_succ. rewrite Bx by lia.
      replace (2 * i / 2) with i by (rewrite Z.mul_comm, Z.div_mul; lia). rewrite Z.even_mul. cbn [orb Z.even].
      replace (i <? 31) with true by lia. reflexivity.
Qed.
(** the bits below 31 only depend on the low 32 *)
Lemma interleaved_mod x y x' y' code : (forall i, 0 <= i < 31 -> Z.testbit x i = Z.testbit x' i) -> (forall i, 0 <= i < 31 -> Z.testbit y i = Z.testbit y' i) ->
  interleaved x y code -> interleaved x' y' code.
Proof. intros X Y [R B]. split; [exact R|]. intros i Hi. rewrite <- X, <- Y by exact Hi. now apply B. Qed.
Lemma mod32_bits r f i : 0 <= i < 31 -> Z.testbit ((r + f mod 2 ^ 32) mod 2 ^ 32) i = Z.testbit (r + f) i.
Proof.
  intros H. rewrite Z.add_mod_idemp_r by lia. now rewrite Z.mod_pow2_bits_low by lia.
Qed.

(** ** Cells *)
(** header and records of a file *)
Definition shows (F : list Z) (h : header) : Prop :=
  get_format h = u_at F 104 1 /\ forall ax, scale_of ax h = file_scale F ax /\ Coord_Api.offset_of ax h = file_offset F ax.
Lemma file_shows F h : shows_file F h -> shows F h.
Proof.
  intros Sh. split; [apply Sh|]. destruct Sh as (PP & _).
  pose proof (f_equal ph_scale PP) as PS. pose proof (f_equal ph_offset PP) as PO. cbn [ph_scale ph_offset pub_of_file pub_of_header] in PS, PO.
  unfold scale_of, Coord_Api.offset_of, axis_of, file_scale, file_offset. destruct (h_scale h) as [[sx sy] sz]. destruct (h_offset h) as [[ox oy] oz].
  unfold bits3 in PS, PO. cbn [x_of y_of z_of fst snd] in *. injection PS as P1 P2 P3. injection PO as Q1 Q2 Q3.
  intros ax. split; destruct ax; cbn [place Nat.mul Nat.add]; rewrite <- ?P1, <- ?P2, <- ?P3, <- ?Q1, <- ?Q2, <- ?Q3; symmetry; apply f64_of_bits_bits.
Qed.

Definition of_file (F : list Z) (h : header) (rec : list Z) : Prop := point_wf (mkPoint rec h) /\ shows F h.

Lemma raw_is F h rec ax : of_file F h rec -> api_get (raw_attr ax) (mkPoint rec h) = Ok (raw_value (raw_attr ax) rec).
Proof.
  intros [W _]. assert (R : forall f, attr_range f (raw_attr ax) = attr_range 0 (raw_attr ax)) by (destruct ax; reflexivity).
  unfold raw_value. destruct (attr_range 0 (raw_attr ax)) as [[[s w] sg]|] eqn:E; [|destruct ax; discriminate].
  rewrite (api_get_spec _ _ s w sg W); [reflexivity|]. now rewrite R.
Qed.
Lemma coord_is F h rec ax : of_file F h rec -> get_coord ax (mkPoint rec h) = Ok (coordinate F ax rec).
Proof.
  intros H. rewrite (coord_of_raw ax _ _ (raw_is F h rec ax H)). cbn [p_hdr]. destruct H as (_ & _ & S). destruct (S ax) as [-> ->]. reflexivity.
Qed.
Lemma field_is F h rec a : of_file F h rec -> attr_range (u_at F 104 1) a <> None -> 
  exists s w sg, attr_range (u_at F 104 1) a = Some (s, w, sg) /\ api_get a (mkPoint rec h) = Ok (decode_bits sg w (field (u_at F 104 1) a rec)).
Proof.
  intros (W & FM & _) N. unfold field. destruct (attr_range (u_at F 104 1) a) as [[[s w] sg]|] eqn:E; [|congruence].
  exists s, w, sg. split; [reflexivity|]. rewrite (api_get_spec _ _ s w sg W); [reflexivity|]. unfold p_format. cbn [p_hdr]. now rewrite FM.
Qed.
Lemma signed_cell n v : (0 < n)%nat -> le_enc n (to_signed (8 * Z.of_nat n) v) = le_enc n v.
Proof.
  intros H. rewrite <- (Ts2las_Proofs.le_enc_mod n (to_signed _ _)), <- (Ts2las_Proofs.le_enc_mod n v). f_equal. rewrite pow256_pow2. apply to_signed_mod. lia.
Qed.
Lemma field_cell F h rec a : of_file F h rec -> attr_range (u_at F 104 1) a <> None -> 
  forall n, (exists s, attr_range (u_at F 104 1) a = Some (s, 8 * Z.of_nat n, true)) \/ (exists s w, attr_range (u_at F 104 1) a = Some (s, w, false)) ->
  int_cell n (api_get a (mkPoint rec h)) = Ok (le_enc n (field (u_at F 104 1) a rec)).
Proof.
  intros H N n Q. destruct (field_is F h rec a H N) as (s & w & sg & E & ->). unfold int_cell. cbn [obind]. f_equal.
  destruct sg; [|reflexivity]. destruct Q as [[s' Q]|(s' & w' & Q)]; [|rewrite E in Q; discriminate Q]. rewrite E in Q. injection Q as -> ->. cbn [decode_bits].
  apply signed_cell. destruct n; [|lia]. exfalso. clear - E. destruct a; cbn [attr_range] in E; repeat destruct (_ =? _) in E; cbn in E; congruence.
Qed.

Lemma wf_format F h rec : of_file F h rec -> 0 <= u_at F 104 1 <= 3.
Proof. intros ((W & _) & FM & _). unfold p_format in W. cbn [p_hdr] in W. now rewrite <- FM. Qed.
Lemma time_cell F h rec : of_file F h rec -> double_cell (get_time (mkPoint rec h)) = Ok (le_enc 8 (field (u_at F 104 1) ATime rec)).
Proof.
  intros H. unfold double_cell. destruct (attr_range (u_at F 104 1) ATime) as [r|] eqn:E.
  - pose proof (field_cell F h rec ATime H ltac:(congruence) 8%nat) as C. unfold int_cell in C. cbn [api_get] in C.
    rewrite <- C. { destruct (get_time (mkPoint rec h)); reflexivity. }
    right. cbn [attr_range] in *. destruct (_ || _); [eauto|discriminate].
  - destruct H as (W & FM & _). destruct (time_absent _ W) as (_ & T). { unfold p_format. cbn [p_hdr]. now rewrite FM. }
    rewrite T. cbn [obind]. unfold field. rewrite E. vm_compute. reflexivity.
Qed.
Lemma color_cell F h rec a (g : color -> Z) : of_file F h rec -> is_color a = true ->
  (forall p, api_get a p = omap g (get_color p)) -> g color_black = 0 ->
  int_cell 2 (let! c := get_color (mkPoint rec h) in Ok (g c)) = Ok (le_enc 2 (field (u_at F 104 1) a rec)).
Proof.
  intros H C G B. destruct (attr_range (u_at F 104 1) a) as [r|] eqn:E.
  - pose proof (field_cell F h rec a H ltac:(congruence) 2%nat) as X. rewrite G in X.
    rewrite <- X. { destruct (get_color (mkPoint rec h)); reflexivity. }
    right. destruct a; try discriminate C; cbn [attr_range] in *; repeat destruct (_ =? _); eauto; discriminate.
  - destruct H as (W & FM & S). destruct (color_absent _ W) as (_ & T).
    { unfold p_format. cbn [p_hdr]. rewrite FM. destruct a; try discriminate C; cbn [attr_range] in *; repeat destruct (_ =? _); congruence. }
    rewrite T. cbn [obind]. unfold field. rewrite E. unfold int_cell. cbn [obind]. now rewrite B.
Qed.

Lemma pointwise_cell F h fx fy c i rec : of_file F h rec -> known_letter c ->
  (forall ax, decimal_letter c = Some ax -> exists n, f64_to_int32 (f64_div (coordinate F ax rec) (file_scale F ax)) = Ok n) ->
  exists bytes, entry_cell (entry_of c) h fx fy i (mkPoint rec h) = Ok bytes /\ cell F fx fy c i rec bytes /\ length bytes = entry_size (entry_of c).
Proof.
  intros H K D.
  assert (FC : forall a n, (exists s w, attr_range (u_at F 104 1) a = Some (s, w, false)) -> int_cell n (api_get a (mkPoint rec h)) = Ok (le_enc n (field (u_at F 104 1) a rec))).
  { intros a n (s & w & E). apply field_cell; [exact H|congruence|eauto]. }
  assert (DC : forall ax, double_cell (get_coord ax (mkPoint rec h)) = Ok (le_enc 8 (f64_bits (coordinate F ax rec)))).
  { intros ax. unfold double_cell. now rewrite (coord_is F h rec ax H). }
  assert (XC : forall ax, decimal_letter c = Some ax -> exists n, decimal_cell (get_coord ax (mkPoint rec h)) (scale_of ax h) = Ok (le_enc 4 n) /\ f64_to_int32 (f64_div (coordinate F ax rec) (file_scale F ax)) = Ok n).
  { intros ax E. destruct (D ax E) as [n En]. exists n. split; [|exact En]. unfold decimal_cell. rewrite (coord_is F h rec ax H). cbn [obind].
    destruct H as (_ & _ & S). rewrite (proj1 (S ax)), En. reflexivity. }
  assert (L : forall n v, length (le_enc n v) = n) by apply le_enc_length.
  unfold known_letter in K. cbn [list_ascii_of_string In] in K.
  repeat match goal with K : _ \/ _ |- _ => destruct K as [K|K] end; try contradiction; subst c; cbn [entry_of entry_cell entry_size].
  all: unfold cell; cbn [field_letter double_letter decimal_letter].
  - eexists. split; [apply (time_cell F h rec H)|]. split; [reflexivity|apply L].
  - eexists. split; [apply (DC AxX)|]. split; [reflexivity|apply L].
  - eexists. split; [apply (DC AxY)|]. split; [reflexivity|apply L].
  - eexists. split; [apply (DC AxZ)|]. split; [reflexivity|apply L].
  - destruct (XC AxX eq_refl) as (n & E1 & E2). exists (le_enc 4 n). split; [exact E1|]. split; [eauto|apply L].
  - destruct (XC AxY eq_refl) as (n & E1 & E2). exists (le_enc 4 n). split; [exact E1|]. split; [eauto|apply L].
  - destruct (XC AxZ eq_refl) as (n & E1 & E2). exists (le_enc 4 n). split; [exact E1|]. split; [eauto|apply L].
  - eexists. split; [apply (field_cell F h rec AScanAngleRank H ltac:(discriminate) 1%nat); left; eexists; reflexivity|]. split; [reflexivity|apply L].
  - eexists. split; [apply (FC AIntensity 2%nat); eexists _, _; reflexivity|]. split; [reflexivity|apply L].
  - eexists. split; [apply (FC ANumberOfReturns 2%nat); eexists _, _; reflexivity|]. split; [reflexivity|apply L].
  - eexists. split; [apply (FC AReturnNumber 2%nat); eexists _, _; reflexivity|]. split; [reflexivity|apply L].
  - eexists. split; [apply (FC AClassification 1%nat); eexists _, _; reflexivity|]. split; [reflexivity|apply L].
  - eexists. split; [apply (FC AUserData 1%nat); eexists _, _; reflexivity|]. split; [reflexivity|apply L].
  - eexists. split; [apply (FC APointSourceId 2%nat); eexists _, _; reflexivity|]. split; [reflexivity|apply L].
  - eexists. split; [apply (FC AFlightLineEdge 2%nat); eexists _, _; reflexivity|]. split; [reflexivity|apply L].
  - eexists. split; [apply (FC AScanDirection 2%nat); eexists _, _; reflexivity|]. split; [reflexivity|apply L].
  - eexists. split; [apply (color_cell F h rec ARed c_red H); reflexivity|]. split; [reflexivity|apply L].
  - eexists. split; [apply (color_cell F h rec AGreen c_green H); reflexivity|]. split; [reflexivity|apply L].
  - eexists. split; [apply (color_cell F h rec ABlue c_blue H); reflexivity|]. split; [reflexivity|apply L].
  - eexists. split; [reflexivity|]. split; [left; split; reflexivity|apply L].
  - pose proof (raw_is F h rec AxX H) as RX. pose proof (raw_is F h rec AxY H) as RY. cbn [raw_attr api_get] in RX, RY.
    eexists. split; [|split; [right; split; [reflexivity|]|apply L]].
    + unfold int_cell, morton_code. rewrite RX. cbn [obind]. rewrite RY. cbn [obind]. reflexivity.
    + exists (code_of ((raw_value ARawX rec + fx mod 2 ^ 32) mod 2 ^ 32) ((raw_value ARawY rec + fy mod 2 ^ 32) mod 2 ^ 32)). split; [|unfold code_of; reflexivity].
      apply (interleaved_mod ((raw_value ARawX rec + fx mod 2 ^ 32) mod 2 ^ 32) ((raw_value ARawY rec + fy mod 2 ^ 32) mod 2 ^ 32)).
      * intros j Hj. apply mod32_bits. exact Hj.
      * intros j Hj. apply mod32_bits. exact Hj.
      * apply code_interleaved.
Qed.

(** ** Rows *)
Lemma put_cell_at pre old rest c i : length old = length c -> Z.of_nat (length pre) = i * Z.of_nat (length c) ->
  put_cell (pre ++ old ++ rest) i c = Ok (pre ++ c ++ rest).
Proof.
  intros LO LP. unfold put_cell. rewrite <- LP, Nat2Z.id, !app_length. replace (_ <=? _) with true by lia. f_equal.
  rewrite firstn_app, Nat.sub_diag, firstn_all, firstn_O, app_nil_r. f_equal. f_equal.
  rewrite app_assoc, skipn_app, skipn_all2 by (rewrite app_length; lia). rewrite app_length, LO, Nat.sub_diag. reflexivity.
Qed.
Definition filled (F : list Z) (fx fy : Z) (i : nat) (c : ascii) (b : list Z) : Prop :=
  exists cells rest, b = List.concat cells ++ rest /\ length cells = i /\ Forall (fun x => length x = entry_size (entry_of c)) cells /\
    length rest = ((Z.to_nat (f_npts F) - i) * entry_size (entry_of c))%nat /\
    forall k rec bytes, nth_error (records_from F 0) k = Some rec -> nth_error cells k = Some bytes -> cell F fx fy c (Z.of_nat k) rec bytes.
Lemma concat_length cells n : Forall (fun x : list Z => length x = n) cells -> length (List.concat cells) = (length cells * n)%nat.
Proof. induction 1 as [|x l E H IH]; [reflexivity|]. cbn [List.concat List.length]. rewrite app_length, IH, E. lia. Qed.
Lemma put_row_ok F h fx fy i rec : of_file F h rec -> nth_error (records_from F 0) i = Some rec -> (i < Z.to_nat (f_npts F))%nat ->
  forall cs bufs, Forall known_letter cs -> Forall (decimals_fit F) cs -> Forall2 (filled F fx fy i) cs bufs ->
  exists bufs', put_row (map entry_of cs) bufs h fx fy (Z.of_nat i) (mkPoint rec h) = Ok bufs' /\ Forall2 (filled F fx fy (S i)) cs bufs'.
Proof.
  intros H NR LT cs bufs K D FL. induction FL as [|c b cs bufs B FL IH]; [exists []; split; [reflexivity|constructor]|].
  apply Forall_cons_iff in K. destruct K as [K Ks]. apply Forall_cons_iff in D. destruct D as [D Ds].
  destruct (IH Ks Ds) as (bufs' & E & FL'). cbn [map put_row].
  destruct (pointwise_cell F h fx fy c (Z.of_nat i) rec H K) as (bytes & EC & CL & LB).
  { intros ax A. unfold decimals_fit in D. rewrite A in D. apply D. eapply nth_error_In; exact NR. }
  rewrite EC. cbn [obind]. destruct B as (cells & rest & -> & LC & SZ & LR & CE).
  assert (R : rest = firstn (entry_size (entry_of c)) rest ++ skipn (entry_size (entry_of c)) rest) by (symmetry; apply firstn_skipn).
  rewrite R. rewrite put_cell_at.
  2:{ rewrite firstn_length, LB. nia. }
  2:{ rewrite (concat_length _ _ SZ), LC, LB. lia. }
  cbn [obind]. rewrite E. cbn [obind]. eexists. split; [reflexivity|]. constructor; [|exact FL'].
  exists (cells ++ [bytes]), (skipn (entry_size (entry_of c)) rest). split; [|split; [|split; [|split]]].
  - rewrite concat_app. cbn [List.concat]. now rewrite app_nil_r, app_assoc.
  - rewrite app_length, LC. cbn [List.length]. lia.
  - apply Forall_app. split; [exact SZ|]. constructor; [exact LB|constructor].
  - rewrite skipn_length, LR. nia.
  - intros k rc bt N1 N2. destruct (Nat.lt_ge_cases k i) as [L|G].
    + rewrite nth_error_app1 in N2 by lia. now apply CE.
    + assert (k = i). { assert (k < length (cells ++ [bytes]))%nat by (apply nth_error_Some; congruence). rewrite app_length in *. cbn [List.length] in *. lia. }
      subst k. rewrite nth_error_app2 in N2 by lia. rewrite LC, Nat.sub_diag in N2. cbn in N2. injection N2 as <-. rewrite NR in N1. injection N1 as <-. exact CL.
Qed.

(** ** The loop *)
Definition scan_angle_ok (rec : list Z) : Prop := -90 <= raw_value AScanAngleRank rec <= 90.
Lemma valid_iff F h rec : of_file F h rec -> is_valid (mkPoint rec h) = Ok ((-90 <=? raw_value AScanAngleRank rec) && (raw_value AScanAngleRank rec <=? 90)).
Proof.
  intros (W & _). 
  assert (G : forall a s w, (forall f, attr_range f a = Some (s, w, false)) -> 0 <= w -> exists v, api_get a (mkPoint rec h) = Ok v /\ 0 <= v < 2 ^ w).
  { intros a s w R Hw. rewrite (api_get_spec _ a s w false W (R _)). eexists. split; [reflexivity|]. now apply bits_at_range. }
  pose proof (api_get_spec _ AScanAngleRank 128 8 true W eq_refl) as SA. cbn [api_get] in SA.
  destruct (G AFlightLineEdge 119 1 ltac:(reflexivity) ltac:(lia)) as (fe & E1 & B1). destruct (G AScanDirection 118 1 ltac:(reflexivity) ltac:(lia)) as (sd & E2 & B2).
  destruct (G ANumberOfReturns 115 3 ltac:(reflexivity) ltac:(lia)) as (nr & E3 & B3). destruct (G AReturnNumber 112 3 ltac:(reflexivity) ltac:(lia)) as (rn & E4 & B4).
  cbn [api_get] in *. unfold is_valid. rewrite SA. cbn [obind]. rewrite E1, E2, E3, E4. cbn [obind]. change (2 ^ 1) with 2 in *. change (2 ^ 3) with 8 in *.
  replace (1 <? fe) with false by lia. replace (1 <? sd) with false by lia. replace (7 <? nr) with false by lia. replace (7 <? rn) with false by lia.
  unfold raw_value. cbn [attr_range]. unfold rec_int. cbn [p_data]. set (sa := decode_bits true 8 _). unfold eScanAngleRankMin, eScanAngleRankMax.
  destruct (Z.ltb_spec sa (-90)), (Z.ltb_spec 90 sa), (Z.leb_spec (-90) sa), (Z.leb_spec sa 90); try reflexivity; lia.
Qed.
Lemma read_points_ok F h fx fy cs skip : (forall rec, In rec (records_from F 0) -> of_file F h rec) -> f_npts F < 2 ^ 32 ->
  (skip = true -> Forall scan_angle_ok (records_from F 0)) -> Forall known_letter cs -> Forall (decimals_fit F) cs ->
  forall fuel i d r bufs, reads (F, Z.of_nat i, d) r -> r_hdr r = h -> (i <= Z.to_nat (f_npts F))%nat -> (Z.to_nat (f_npts F) - i < fuel)%nat ->
  Forall2 (filled F fx fy i) cs bufs ->
  exists bufs', read_points skip (map entry_of cs) fx fy fuel r (Z.of_nat i) bufs = Ok bufs' /\ Forall2 (filled F fx fy (Z.to_nat (f_npts F))) cs bufs'.
Proof.
  intros OF N32 SK K D. induction fuel as [|fuel IH]; intros i d r bufs R RH LE LF FL; [lia|]. cbn [read_points].
  destruct (next_reads F (Z.of_nat i) d r R) as (r1 & E & R1 & RH1). rewrite E. destruct (Z.ltb_spec (Z.of_nat i) (f_npts F)) as [L|L].
  - assert (RN : nth_error (records_from F 0) i = Some (file_record F (Z.of_nat i))).
    { unfold records_from. rewrite nth_error_map. rewrite (nth_error_nth' _ 0%nat) by (rewrite seq_length; lia). rewrite seq_nth by lia. cbn [option_map]. do 2 f_equal. }
    assert (IR : In (file_record F (Z.of_nat i)) (records_from F 0)) by (eapply nth_error_In; exact RN).
    assert (RP : r_point r1 = mkPoint (file_record F (Z.of_nat i)) h).
    { unfold r_point. rewrite RH1, RH. f_equal. apply R1. }
    assert (V : (if skip then is_valid (r_point r1) else Ok true) = Ok true).
    { destruct skip; [|reflexivity]. rewrite RP, (valid_iff F h _ (OF _ IR)). f_equal. specialize (SK eq_refl). rewrite Forall_forall in SK. specialize (SK _ IR). unfold scan_angle_ok in SK. lia. }
    rewrite V. cbn [obind]. rewrite RP, RH1, RH.
    destruct (put_row_ok F h fx fy i _ (OF _ IR) RN ltac:(lia) cs bufs K D FL) as (bufs' & EP & FL'). rewrite EP. cbn [obind].
    replace ((Z.of_nat i + 1) mod 2 ^ 32) with (Z.of_nat (S i)).
    2:{ rewrite Z.mod_small; [lia|]. split; lia. }
    replace (Z.of_nat i + 1) with (Z.of_nat (S i)) in R1 by lia.
    apply (IH (S i) (file_record F (Z.of_nat i)) r1 bufs' R1); try lia; [congruence|exact FL'].
  - replace i with (Z.to_nat (f_npts F)) in FL by lia. exists bufs. split; [reflexivity|exact FL].
Qed.

(** C43: the translation transform.  Vocabulary: Coord_Api.v. *)
From Coq Require Import ZArith Reals List Bool Lia Lra String Ascii.
From Flocq Require Import Core.
Import ListNotations.
From Verif Require Import Outcome Bytes Float64 Float64_Proofs Header_Model Point_Model
  Point_Spec Point_Api Point_Proofs Point_Hist Bounds_Proofs Coord_Api Coord_Proofs Coord_Header IO_Samples Prop_Coord Transform_Model.
Local Open Scope Z_scope.
Local Notation length := List.length (only parsing).

(** ** the expression language: "x+10 y*2 z-0.5" *)
Definition axis_char (ax : axis) : ascii := match ax with AxX => "x" | AxY => "y" | AxZ => "z" end.
Definition oper_char (o : oper) : ascii := match o with OpMultiply => "*" | OpDivide => "/" | OpSubtract => "-" | OpAdd => "+" end.
Definition term (d : axis) (o : oper) (num : string) : string := String (axis_char d) (String (oper_char o) num).
Definition plain_number (s : string) : Prop :=
  forall c, In c ["x"; "y"; "z"; "*"; "/"; "+"; "-"; " "]%char -> has_char c s = false.

Lemma after_last_none c s r : has_char c r = false -> after_last c (String s r) = if Ascii.eqb s c then r else after_last c r.
Proof. cbn [after_last]. intros ->. reflexivity. Qed.
Lemma erase_none s : has_char " " s = false -> erase_spaces s = s.
Proof. induction s as [|a s IH]; cbn; [reflexivity|]. destruct (Ascii.eqb_spec a " "); [discriminate|]. cbn [orb]. intros H. now rewrite IH. Qed.

Lemma parse_term cast d o num v : plain_number num -> cast num = Some v -> get_operation cast (term d o num) = Ok (mkOperation o d v).
Proof.
  intros P C. unfold get_operation.
  assert (X : forall c, In c ["x"; "y"; "z"; "*"; "/"; "+"; "-"; " "]%char -> has_char c (term d o num) = Ascii.eqb (axis_char d) c || Ascii.eqb (oper_char o) c).
  { intros c Hc. unfold term. cbn [has_char]. rewrite (P c Hc), orb_false_r. reflexivity. }
  assert (E : erase_spaces (term d o num) = term d o num) by (apply erase_none; rewrite X by (cbn; tauto); destruct d, o; reflexivity).
  rewrite E. rewrite !X by (cbn; tauto).
  assert (L : forall c, In c ["*"; "/"; "+"; "-"]%char -> oper_char o = c -> after_last c (term d o num) = num).
  { intros c Hc <-. unfold term. cbn [after_last has_char]. rewrite Ascii.eqb_refl. cbn [orb]. rewrite P; [reflexivity|].
    destruct o; cbn; tauto. }
  clear X E P. destruct d, o; cbn -[after_last term]; (rewrite L; [|cbn; tauto|reflexivity]); rewrite C; reflexivity.
Qed.

Fixpoint spaced (l : list string) : string :=
  match l with [] => EmptyString | [s] => s | s :: r => (s ++ String " " (spaced r))%string end.

Lemma app_empty s : (s ++ "")%string = s. Proof. induction s; cbn; congruence. Qed.
Lemma app_assoc_s a b c : ((a ++ b) ++ c)%string = (a ++ (b ++ c))%string. Proof. induction a; cbn; congruence. Qed.
Lemma tokens_word w : forall cur r, has_char " " w = false -> tokens_from cur (w ++ r) = tokens_from (cur ++ w) r.
Proof.
  induction w as [|a w IH]; intros cur r H; [now rewrite app_empty|]. cbn [has_char] in H. apply orb_false_iff in H as (H1 & H2).
  cbn [append tokens_from]. rewrite H1. rewrite IH by exact H2. now rewrite app_assoc_s.
Qed.
Lemma tokens_spaced l : (forall s, In s l -> s <> ""%string /\ has_char " " s = false) -> tokens_from "" (spaced l) = l.
Proof.
  induction l as [|s l IH]; intros H; [reflexivity|]. destruct (H s (or_introl eq_refl)) as (N & B).
  destruct l as [|s2 l].
  - cbn [spaced]. rewrite <- (app_empty s) at 1. rewrite tokens_word by exact B. cbn. destruct s; [congruence|reflexivity].
  - change (spaced (s :: s2 :: l)) with (s ++ String " " (spaced (s2 :: l)))%string. rewrite tokens_word by exact B.
    cbn [tokens_from append Ascii.eqb Bool.eqb]. rewrite IH by (intros; apply H; now right). destruct s; [congruence|reflexivity].
Qed.

(** Every expression made of terms "<axis><operator><unsigned number>" separated
    by spaces is understood as written. *)
Theorem C43_parse : forall cast (l : list (axis * oper * string * f64)), l <> [] ->
  (forall d o n v, In (d, o, n, v) l -> plain_number n /\ cast n = Some v) ->
  translation_new cast (spaced (map (fun t => let '(d, o, n, _) := t in term d o n) l)) =
  Ok (map (fun t => let '(d, o, _, v) := t in mkOperation o d v) l).
Proof.
  intros cast l Nl H. unfold translation_new.
  assert (T : tokens_from "" (spaced (map (fun t => let '(d, o, n, _) := t in term d o n) l)) = map (fun t => let '(d, o, n, _) := t in term d o n) l).
  { apply tokens_spaced. intros s Hs. apply in_map_iff in Hs as ([[[d o] n] v] & <- & Hin). destruct (H d o n v Hin) as (P & _).
    split; [discriminate|]. unfold term. cbn [has_char]. rewrite (P " "%char) by (cbn; tauto). destruct d, o; reflexivity. }
  destruct (spaced _) as [|a s] eqn:E.
  - destruct l as [|[[[d o] n] v] [|t2 l]]; [congruence|discriminate E|].
    cbn [map] in E. change (term d o n ++ String " " (spaced (map (fun t => let '(d, o, n, _) := t in term d o n) (t2 :: l))) = "")%string in E. discriminate E.
  - rewrite T. clear - H. induction l as [|[[[d o] n] v] l IH]; [reflexivity|]. cbn [map get_operations].
    destruct (H d o n v (or_introl eq_refl)) as (P & C). rewrite (parse_term cast d o n v P C). cbn [obind].
    rewrite IH by (intros d' o' n' v' Hin; apply (H d' o' n' v'); now right). reflexivity.
Qed.
Print Assumptions C43_parse.

(** A sign or an exponent in the number is taken for the operator: "x*-1" (mirror)
    subtracts 1, "x*1e-3" (millimetres) subtracts 3. *)
Theorem C43_signed_number_refuted : forall cast one three, cast "1"%string = Some one -> cast "3"%string = Some three ->
  translation_new cast "x*-1" = Ok [mkOperation OpSubtract AxX one] /\
  translation_new cast "x*1e-3" = Ok [mkOperation OpSubtract AxX three].
Proof. intros cast one three H1 H3. cbn. rewrite H1, H3. split; reflexivity. Qed.
Print Assumptions C43_signed_number_refuted.

(** ** the limit check *)
Lemma compare_wrap a e : in_signed 32 a -> in_signed 32 e -> compare_distance_int true a e = Ok (a =? e).
Proof.
  unfold in_signed. change (2 ^ (32 - 1)) with 2147483648. intros Ha He. unfold compare_distance_int.
  assert (Z0 : forall d, (d <=? 0) && (d >=? - 0) = (d =? 0)).
  { intros d. rewrite Z.geb_leb. destruct (Z.leb_spec d 0), (Z.leb_spec (-0) d), (Z.eqb_spec d 0); cbn; try reflexivity; lia. }
  rewrite !Z0. destruct (in_signedb 32 (a - e)) eqn:I.
  - f_equal. destruct (Z.eqb_spec (a - e) 0), (Z.eqb_spec a e); try reflexivity; lia.
  - f_equal. unfold in_signedb in I. change (2 ^ (32 - 1)) with 2147483648 in I.
    destruct (Z.eqb_spec a e) as [->|N]; [rewrite Z.sub_diag in I; discriminate|].
    apply Z.eqb_neq. unfold to_signed. change (2 ^ (32 - 1)) with 2147483648. change (2 ^ 32) with 4294967296. rewrite Z.mod_mod by lia.
    apply andb_false_iff in I. rewrite Z.leb_gt, Z.ltb_ge in I.
    assert (E : (a - e) mod 4294967296 <> 0).
    { intros M. apply Z.mod_divide in M; [|lia]. destruct M as (k & M). lia. }
    pose proof (Z.mod_pos_bound (a - e) 4294967296 ltac:(lia)). destruct (_ <? _) eqn:L; [lia|]. apply Z.ltb_ge in L. lia.
Qed.
Lemma check_wrap v : in_signed 32 v -> check_raw true v = if (v =? int32_max) || (v =? int32_min) then Throw EDomain else Ok tt.
Proof.
  intros H. unfold check_raw. rewrite !compare_wrap; auto; try (vm_compute; split; congruence).
  cbn [obind]. destruct (v =? int32_max); [reflexivity|]. cbn [orb]. destruct (v =? int32_min); reflexivity.
Qed.

(** A coordinate of [p] is stored as one of the two extreme integers. *)
Definition at_limit (p : point) : Prop :=
  exists ax, api_get (raw_attr ax) p = Ok int32_max \/ api_get (raw_attr ax) p = Ok int32_min.

Lemma transform_cons op ops p p1 : apply_op op p = Ok p1 -> point_wf p1 ->
  (at_limit p1 -> transform true (op :: ops) p = Throw EDomain) /\
  (~ at_limit p1 -> transform true (op :: ops) p = transform true ops p1).
Proof.
  intros A W. cbn [transform]. rewrite A. cbn [obind].
  destruct (raw_get p1 AxX W) as (x & X & Ix). destruct (raw_get p1 AxY W) as (y & Y & Iy). destruct (raw_get p1 AxZ W) as (z & Z0 & Iz).
  cbn [raw_attr api_get] in *. rewrite X, Y, Z0. cbn [obind]. rewrite !check_wrap by assumption.
  assert (L : at_limit p1 <-> (x = int32_max \/ x = int32_min) \/ (y = int32_max \/ y = int32_min) \/ (z = int32_max \/ z = int32_min)).
  { unfold at_limit. split.
    - intros ([| |] & H); cbn [raw_attr api_get] in H; rewrite ?X, ?Y, ?Z0 in H; destruct H as [H|H]; apply Writer_Append.Ok_inj in H; tauto.
    - intros [H|[H|H]]; [exists AxX|exists AxY|exists AxZ]; cbn [raw_attr api_get]; rewrite ?X, ?Y, ?Z0; destruct H as [-> | ->]; tauto. }
  rewrite L.
  destruct (Z.eqb_spec x int32_max); cbn [orb obind]; [tauto|]. destruct (Z.eqb_spec x int32_min); cbn [orb obind]; [tauto|].
  destruct (Z.eqb_spec y int32_max); cbn [orb obind]; [tauto|]. destruct (Z.eqb_spec y int32_min); cbn [orb obind]; [tauto|].
  destruct (Z.eqb_spec z int32_max); cbn [orb obind]; [tauto|]. destruct (Z.eqb_spec z int32_min); cbn [orb obind]; [tauto|]. tauto.
Qed.

(** Exactly when the transform throws: after an operation some stored
    coordinate is the largest or smallest 32-bit integer.  ([true]: the compiler
    makes signed subtraction wrap around.) *)
Theorem C43_limit_throws : forall op p p1, point_wf p1 -> apply_op op p = Ok p1 ->
  (transform true [op] p = Throw EDomain <-> at_limit p1) /\ (transform true [op] p = Ok p1 <-> ~ at_limit p1).
Proof.
  intros op p p1 W A. destruct (transform_cons op [] p p1 A W) as (T1 & T2).
  assert (D : at_limit p1 \/ ~ at_limit p1).
  { destruct (raw_get p1 AxX W) as (x & X & Ix). destruct (raw_get p1 AxY W) as (y & Y & Iy). destruct (raw_get p1 AxZ W) as (z & Z0 & Iz).
    destruct (Z.eq_dec x int32_max) as [E|E1]; [left; exists AxX; rewrite X, E; tauto|].
    destruct (Z.eq_dec x int32_min) as [E|E2]; [left; exists AxX; rewrite X, E; tauto|].
    destruct (Z.eq_dec y int32_max) as [E|E3]; [left; exists AxY; rewrite Y, E; tauto|].
    destruct (Z.eq_dec y int32_min) as [E|E4]; [left; exists AxY; rewrite Y, E; tauto|].
    destruct (Z.eq_dec z int32_max) as [E|E5]; [left; exists AxZ; rewrite Z0, E; tauto|].
    destruct (Z.eq_dec z int32_min) as [E|E6]; [left; exists AxZ; rewrite Z0, E; tauto|].
    right. intros ([| |] & [H|H]); rewrite ?X, ?Y, ?Z0 in H; apply Writer_Append.Ok_inj in H; congruence. }
  destruct D as [D|D]; [rewrite T1 by exact D|rewrite T2 by exact D]; cbn [transform]; split; split; intros; try tauto; try discriminate; try contradiction.
Qed.
Print Assumptions C43_limit_throws.

(** Under the C++ rules the check itself is undefined behaviour: the subtraction
    overflows for every stored X coordinate other than -1 and 2^31 - 1. *)
Theorem C43_signed_overflow_refuted : forall op ops p p1 n, point_wf p1 -> apply_op op p = Ok p1 ->
  get_raw_x p1 = Ok n -> n <> -1 -> n <> int32_max -> transform false (op :: ops) p = UB UBIntOverflow.
Proof.
  intros op ops p p1 n W A G N1 N2. cbn [transform]. rewrite A. cbn [obind]. rewrite G. cbn [obind].
  destruct (raw_get p1 AxX W) as (x & X & Ix). cbn [raw_attr api_get] in X. rewrite G in X. apply Writer_Append.Ok_inj in X. subst x.
  unfold in_signed in Ix. change (2 ^ (32 - 1)) with 2147483648 in Ix. unfold int32_max in N2.
  assert (K : check_raw false n = UB UBIntOverflow); [|now rewrite K].
  unfold check_raw, compare_distance_int, int32_max, int32_min, in_signedb. change (2 ^ (32 - 1)) with 2147483648.
  destruct (Z.leb_spec (- (2147483648)) (n - 2147483647)).
  - destruct (Z.ltb_spec (n - 2147483647) 2147483648); [|lia]. cbn [andb obind].
    rewrite !Z.geb_leb. destruct (Z.leb_spec (n - 2147483647) 0); [|lia]. destruct (Z.leb_spec (- 0) (n - 2147483647)); [lia|]. cbn [andb obind].
    destruct (Z.leb_spec (- (2147483648)) (n - -2147483648)); [|lia]. destruct (Z.ltb_spec (n - -2147483648) 2147483648); [lia|]. reflexivity.
  - reflexivity.
Qed.
Print Assumptions C43_signed_overflow_refuted.

(** ** what one operation does *)
(** The operation on real numbers. *)
Definition op_real (o : oper) (x v : R) : R :=
  match o with OpMultiply => x * v | OpDivide => x / v | OpAdd => x + v | OpSubtract => x - v end%R.

(** Rounding of one operation: [r] is within half a unit in the last place of
    the exact result. *)
Definition rounds_to (exact : R) (r : f64) : Prop :=
  f64_fin r = true /\ (Rabs (f64_R r - exact) <= u64 * Rabs exact + bpow radix2 (-1075))%R.

Lemma op_rounds o x v : f64_fin x = true -> f64_fin v = true -> (o = OpDivide -> f64_R v <> 0%R) ->
  (Rabs (op_real o (f64_R x) (f64_R v)) <= bpow radix2 1000)%R -> rounds_to (op_real o (f64_R x) (f64_R v)) (op_value o x v).
Proof.
  intros Fx Fv Nv B. assert (K : forall e r, f64_fin r = true -> f64_R r = rnd64 e -> rounds_to e r).
  { intros e r F E. split; [exact F|]. rewrite E. destruct (rnd64_err e) as (d & h & Hd & Hh & ->).
    replace (e * (1 + d) + h - e)%R with (e * d + h)%R by ring. eapply Rle_trans; [apply Rabs_triang|]. rewrite Rabs_mult.
    apply Rplus_le_compat; [|exact Hh]. rewrite Rmult_comm. apply Rmult_le_compat_r; [apply Rabs_pos|exact Hd]. }
  destruct o; cbn [op_real op_value] in *.
  - destruct (mul_ok x v Fx Fv B). now apply K.
  - destruct (div_ok x v Fx (Nv eq_refl) B). now apply K.
  - destruct (sub_ok x v Fx Fv B). now apply K.
  - destruct (add_ok x v Fx Fv B). now apply K.
Qed.

(** A value strictly inside what the header can store. *)
Definition storable_inside (s o v : f64) : Prop :=
  f64_fin v = true /\ (Rabs (f64_R v - f64_R o) <= 2147483646 * Rabs (f64_R s))%R.

Lemma set_coord_inside p ax v : point_wf p -> scale_ok (scale_of ax (p_hdr p)) -> offset_ok (offset_of ax (p_hdr p)) ->
  storable_inside (scale_of ax (p_hdr p)) (offset_of ax (p_hdr p)) v ->
  exists n, quantise (scale_of ax (p_hdr p)) (offset_of ax (p_hdr p)) v = Ok n /\ -2147483647 < n < 2147483647.
Proof.
  intros W Hs (Fo & Bo) (Fv & B). set (s := scale_of ax (p_hdr p)) in *. set (o := offset_of ax (p_hdr p)) in *.
  assert (S0 : (0 < Rabs (f64_R s))%R) by (destruct Hs as (_ & S1 & _); apply Rlt_le_trans with (2 := S1); apply bpow_gt_0).
  destruct (quantise_spec s o v Hs Fo Fv ltac:(lra)) as (q & E & Eq & Bq). pose proof (nearest_err q Bq) as EN.
  assert (Bt : (Rabs ((f64_R v - f64_R o) / f64_R s) <= 2147483646)%R).
  { unfold Rdiv. rewrite Rabs_mult, Rabs_inv. apply Rmult_le_reg_r with (Rabs (f64_R s)); [exact S0|]. rewrite Rmult_assoc, Rinv_l by lra. lra. }
  apply rabs in EN. apply rabs in Eq. apply rabs in Bt.
  assert (R : -2147483647 < nearest_of q < 2147483647) by (split; apply lt_IZR; lra).
  exists (nearest_of q). split; [|exact R]. rewrite E. unfold in_signedb. change (2 ^ (32 - 1)) with 2147483648.
  destruct (Z.leb_spec (- (2147483648)) (nearest_of q)); [|lia]. destruct (Z.ltb_spec (nearest_of q) 2147483648); [|lia]. reflexivity.
Qed.

(** One operation on a point none of whose other coordinates is at the limit:
    the coordinate becomes the requested one up to the rounding of the operation
    and the quantum of the header; nothing else changes. *)
Theorem C43_one_operation : forall p op x, point_wf p ->
  let ax := o_dim op in let s := scale_of ax (p_hdr p) in let o := offset_of ax (p_hdr p) in
  scale_ok s -> offset_ok o -> get_coord ax p = Ok x -> f64_fin x = true -> f64_fin (o_value op) = true ->
  (o_oper op = OpDivide -> f64_R (o_value op) <> 0%R) ->
  (Rabs (op_real (o_oper op) (f64_R x) (f64_R (o_value op))) <= bpow radix2 1000)%R ->
  storable_inside s o (op_value (o_oper op) x (o_value op)) ->
  (forall ax', ax' <> ax -> api_get (raw_attr ax') p <> Ok int32_max /\ api_get (raw_attr ax') p <> Ok int32_min) ->
  exists p' x', transform true [op] p = Ok p' /\ point_wf p' /\ p_hdr p' = p_hdr p /\
    get_coord ax p' = Ok x' /\
    (Rabs (f64_R x' - op_real (o_oper op) (f64_R x) (f64_R (o_value op))) <=
       quantum s o + u64 * Rabs (op_real (o_oper op) (f64_R x) (f64_R (o_value op))) + bpow radix2 (-1075))%R /\
    (forall b, b <> raw_attr ax -> attr_range (p_format p) b <> None -> api_get b p' = api_get b p) /\
    (forall i, (Z.to_nat (format_bytes (p_format p)) <= i)%nat -> nth_error (p_data p') i = nth_error (p_data p) i).
Proof.
  intros p op x W ax s o Hs Ho G Fx Fv Nv B Si Lim.
  destruct (op_rounds (o_oper op) x (o_value op) Fx Fv Nv B) as (Fr & Er).
  assert (St : storable s o (op_value (o_oper op) x (o_value op))).
  { destruct Si as (F & Bi). split; [exact F|]. pose proof (Rabs_pos (f64_R s)). lra. }
  destruct (set_coord_spec p ax _ W Hs Ho St) as (p' & x' & E & W' & H' & L' & G' & F' & B' & A' & C').
  destruct (set_coord_inside p ax _ W Hs Ho Si) as (n & Q & Rn).
  assert (AP : apply_op op p = Ok p') by (unfold apply_op; fold ax; rewrite G; cbn [obind]; exact E).
  exists p', x'. split.
  - apply (C43_limit_throws op p p' W' AP). intros (ax' & Hl).
    destruct (attr_eq_dec (raw_attr ax') (raw_attr ax)) as [Ea|Ea].
    + rewrite set_coord_raw in E. fold s o in E. fold s o in Q. rewrite Q in E. cbn [obind] in E.
      destruct (raw_range (p_format p) ax) as (st & R & C).
      destruct (set_get_frame p (raw_attr ax) n st 32 true W C R) as (p2 & E2 & _ & _ & _ & G2 & _).
      { cbn [value_fits]. unfold in_signed. change (2 ^ (32 - 1)) with 2147483648. lia. }
      rewrite E in E2. apply Writer_Append.Ok_inj in E2. subst p2. rewrite Ea, G2 in Hl. unfold int32_max, int32_min in Hl.
      destruct Hl as [Hl|Hl]; apply Writer_Append.Ok_inj in Hl; lia.
    + assert (Na : ax' <> ax) by (intros ->; congruence). destruct (Lim ax' Na) as (L1 & L2).
      destruct (raw_range (p_format p) ax') as (st & R & C). rewrite A' in Hl by (auto; congruence). destruct Hl; contradiction.
  - split; [exact W'|]. split; [exact H'|]. split; [exact G'|]. split; [|split; [exact A'|exact C']].
    replace (f64_R x' - op_real (o_oper op) (f64_R x) (f64_R (o_value op)))%R with
      ((f64_R x' - f64_R (op_value (o_oper op) x (o_value op))) + (f64_R (op_value (o_oper op) x (o_value op)) - op_real (o_oper op) (f64_R x) (f64_R (o_value op))))%R by ring.
    eapply Rle_trans; [apply Rabs_triang|]. fold s o in B'. lra.
Qed.
Print Assumptions C43_one_operation.

(** A list of operations is their composition. *)
Theorem C43_sequence : forall wrap ops1 ops2 p,
  transform wrap (ops1 ++ ops2) p = let! p1 := transform wrap ops1 p in transform wrap ops2 p1.
Proof.
  intros wrap ops1 ops2. induction ops1 as [|op ops1 IH]; intros p; [reflexivity|]. cbn [transform app].
  repeat match goal with |- (let! _ := ?m in _) = (let! _ := (let! _ := ?m in _) in _) => destruct m; [cbn [obind]|reflexivity|reflexivity] end.
  apply IH.
Qed.
Print Assumptions C43_sequence.

(** A coordinate moved out of the 32-bit range is undefined behaviour (the
    conversion in SetX), not the announced exception. *)
Theorem C43_out_of_range_refuted : exists p op, point_wf p /\ scale_ok (scale_of AxX (p_hdr p)) /\
  op = mkOperation OpAdd AxX (f64_of_Z (2 ^ 31)) /\ transform true [op] p = UB UBFloatToInt.
Proof.
  exists (raw_point (scaled_header 0 (f64_of_Z 1) (f64_of_Z 0)) 1). eexists.
  split. { split; [vm_compute; split; discriminate|]. split; [apply bytes_okb_ok; vm_compute; reflexivity|vm_compute; discriminate]. }
  split; [exact one_scale|]. split; [reflexivity|]. vm_compute. reflexivity.
Qed.
Print Assumptions C43_out_of_range_refuted.

Example C43_instance :
  let p := raw_point (scaled_header 0 (f64_of_Z 1) (f64_of_Z 1000)) (-7) in
  (let! p' := transform true [mkOperation OpAdd AxX (f64_of_Z 10); mkOperation OpMultiply AxX (f64_of_Z 2)] p in get_raw_x p') = Ok 1006 /\
  (let! p' := transform true [mkOperation OpAdd AxX (f64_of_Z 2147483654)] p in get_raw_x p') = Throw EDomain.
Proof. split; vm_compute; reflexivity. Qed.

(** C05, C06, C07, C08: world coordinates, and moving a point to another header.
    Vocabulary: Coord_Api.v. *)
From Coq Require Import ZArith Reals List Bool Lia Lra String.
From Flocq Require Import Core.
Import ListNotations.
From Verif Require Import Outcome Bytes Float64 Float64_Proofs Classif_Model Schema_Model Schema_Spec Schema_Api Schema_Proofs Header_Model Point_Model
  Point_Spec Point_Api Point_Proofs Point_Hist Bounds_Proofs Coord_Api Coord_Proofs Coord_Header IO_Samples.
Local Open Scope Z_scope.
Local Notation length := List.length (only parsing).

(** ** C05: reading a coordinate and writing it back changes no byte of the
    record, for every record, axis and scaling with |offset| <= 2^50 |scale|. *)
Theorem C05_round_trip : forall p ax, point_wf p ->
  scale_ok (scale_of ax (p_hdr p)) -> f64_fin (offset_of ax (p_hdr p)) = true ->
  (Rabs (f64_R (offset_of ax (p_hdr p))) <= 1125899906842624 * Rabs (f64_R (scale_of ax (p_hdr p))))%R ->
  exists x, get_coord ax p = Ok x /\ set_coord ax p x = Ok p.
Proof. exact coord_round_trip. Qed.
Print Assumptions C05_round_trip.

(** In terms of the raw value: [n] is read as a double that is stored as [n]. *)
Theorem C05_raw_values : forall s o n, scale_ok s -> f64_fin o = true ->
  (Rabs (f64_R o) <= 1125899906842624 * Rabs (f64_R s))%R -> in_signed 32 n -> quantise s o (descale s o n) = Ok n.
Proof. exact raw_round_trip. Qed.
Print Assumptions C05_raw_values.

(** A header of format 0 with the given scale and offset on every axis. *)
Definition scaled_header (fmt : Z) (s o : f64) : header :=
  let h := sample_header 2 in
  h_upd_offset (h_upd_scale (h_upd_schema h (get_ok (h_schema h) (schema_new fmt))) (s, s, s)) (o, o, o).
Definition raw_point (h : header) (n : Z) : point := mkPoint (le_enc 4 n ++ repeat 1 16) h.

Lemma one_scale : scale_ok (f64_of_Z 1).
Proof.
  destruct (of_Z_ok 1 ltac:(lia)) as (F & R). split; [exact F|]. rewrite R, Rabs_pos_eq by lra. change 1%R with (bpow radix2 0).
  split; apply bpow_le; lia.
Qed.
Lemma small_offset z : Z.abs z <= 2 ^ 50 -> f64_fin (f64_of_Z z) = true /\ (Rabs (f64_R (f64_of_Z z)) <= 1125899906842624 * Rabs (f64_R (f64_of_Z 1)))%R.
Proof.
  intros H. assert (Hz : Z.abs z <= 2 ^ 53) by (change (2 ^ 50) with 1125899906842624 in H; change (2 ^ 53) with 9007199254740992; lia).
  destruct (of_Z_ok z Hz) as (F & R). destruct (of_Z_ok 1 ltac:(lia)) as (_ & R1). split; [exact F|].
  rewrite R, R1, Rabs_R1, Rmult_1_r, <- abs_IZR. apply IZR_le. exact H.
Qed.

Example C05_instance : exists x, get_coord AxX (raw_point (scaled_header 0 (f64_of_Z 1) (f64_of_Z 1000)) (-7)) = Ok x /\
  set_coord AxX (raw_point (scaled_header 0 (f64_of_Z 1) (f64_of_Z 1000)) (-7)) x = Ok (raw_point (scaled_header 0 (f64_of_Z 1) (f64_of_Z 1000)) (-7)).
Proof.
  destruct (small_offset 1000 ltac:(vm_compute; discriminate)) as (F & B).
  apply C05_round_trip; [|exact one_scale|exact F|exact B].
  split; [vm_compute; split; discriminate|]. split; [apply bytes_okb_ok; vm_compute; reflexivity|vm_compute; discriminate].
Qed.

(** Without the bound on the offset the raw value is lost: scale 1, offset
    2^53, raw value 1 reads as 2^53 and is stored back as 0. *)
Theorem C05_offset_refuted : exists p, point_wf p /\ scale_ok (scale_of AxX (p_hdr p)) /\ f64_fin (offset_of AxX (p_hdr p)) = true /\
  get_raw_x p = Ok 1 /\ (let! x := get_x p in let! p' := set_x p x in get_raw_x p') = Ok 0.
Proof.
  exists (raw_point (scaled_header 0 (f64_of_Z 1) (f64_of_Z (2 ^ 53))) 1).
  split. { split; [vm_compute; split; discriminate|]. split; [apply bytes_okb_ok; vm_compute; reflexivity|vm_compute; discriminate]. }
  split; [exact one_scale|]. split; [apply of_Z_ok; vm_compute; discriminate|]. split; vm_compute; reflexivity.
Qed.
Print Assumptions C05_offset_refuted.

(** ** C06: a stored coordinate reads back within half a scale step (and a
    rounding error); no other attribute and no custom byte changes. *)
Theorem C06_quantisation : forall p ax v, point_wf p ->
  scale_ok (scale_of ax (p_hdr p)) -> offset_ok (offset_of ax (p_hdr p)) ->
  storable (scale_of ax (p_hdr p)) (offset_of ax (p_hdr p)) v ->
  exists p' x, set_coord ax p v = Ok p' /\ point_wf p' /\ p_hdr p' = p_hdr p /\ length (p_data p') = length (p_data p) /\
    get_coord ax p' = Ok x /\ f64_fin x = true /\
    (Rabs (f64_R x - f64_R v) <= Rabs (f64_R (scale_of ax (p_hdr p))) * (/ 2 + / 131072) + / 9007199254740992 * Rabs (f64_R (offset_of ax (p_hdr p))))%R /\
    (forall b, b <> raw_attr ax -> attr_range (p_format p) b <> None -> api_get b p' = api_get b p) /\
    (forall i, (Z.to_nat (format_bytes (p_format p)) <= i)%nat -> nth_error (p_data p') i = nth_error (p_data p) i).
Proof. exact set_coord_spec. Qed.
Print Assumptions C06_quantisation.

(** Outside the 32-bit range the conversion is undefined behaviour, not an
    exception (stated up to twice the range). *)
Theorem C06_out_of_range : forall p ax v,
  scale_ok (scale_of ax (p_hdr p)) -> f64_fin (offset_of ax (p_hdr p)) = true -> f64_fin v = true ->
  (2147483649 * Rabs (f64_R (scale_of ax (p_hdr p))) <= Rabs (f64_R v - f64_R (offset_of ax (p_hdr p))) <= 4294967296 * Rabs (f64_R (scale_of ax (p_hdr p))))%R ->
  set_coord ax p v = UB UBFloatToInt.
Proof.
  intros p ax v Hs Fo Fv B. rewrite set_coord_raw. set (s := scale_of ax (p_hdr p)) in *. set (o := offset_of ax (p_hdr p)) in *.
  destruct (quantise_spec s o v Hs Fo Fv ltac:(lra)) as (q & -> & Eq & Bq).
  assert (S0 : (0 < Rabs (f64_R s))%R) by (destruct Hs as (_ & S1 & _); apply Rlt_le_trans with (2 := S1); apply bpow_gt_0).
  pose proof (nearest_err q Bq) as EN.
  assert (Bt : (2147483649 <= Rabs ((f64_R v - f64_R o) / f64_R s))%R).
  { unfold Rdiv. rewrite Rabs_mult, Rabs_inv. apply Rmult_le_reg_r with (Rabs (f64_R s)); [exact S0|]. rewrite Rmult_assoc, Rinv_l by lra. lra. }
  destruct (in_signedb 32 (nearest_of q)) eqn:I; [|reflexivity]. exfalso.
  unfold in_signedb in I. apply andb_true_iff in I as (I1 & I2). apply Z.leb_le in I1. apply Z.ltb_lt in I2.
  change (2 ^ (32 - 1)) with 2147483648 in *. apply IZR_le in I1. apply IZR_lt in I2. apply rabs in EN. apply rabs in Eq.
  set (t := ((f64_R v - f64_R o) / f64_R s)%R) in *. unfold Rabs in Bt. change (- (2147483648)) with (-2147483648) in I1. destruct (Rcase_abs t); lra.
Qed.
Print Assumptions C06_out_of_range.

Theorem C06_overflow_refuted : exists p v, point_wf p /\ scale_ok (scale_of AxX (p_hdr p)) /\ offset_ok (offset_of AxX (p_hdr p)) /\
  f64_fin v = true /\ set_x p v = UB UBFloatToInt.
Proof.
  exists (raw_point (scaled_header 0 (f64_of_Z 1) (f64_of_Z 0)) 1), (f64_of_Z (2 ^ 31)).
  split. { split; [vm_compute; split; discriminate|]. split; [apply bytes_okb_ok; vm_compute; reflexivity|vm_compute; discriminate]. }
  split; [exact one_scale|]. split. { destruct (of_Z_ok 0 ltac:(lia)) as (F & R). split; [exact F|]. change (offset_of AxX (p_hdr (raw_point (scaled_header 0 (f64_of_Z 1) (f64_of_Z 0)) 1))) with (f64_of_Z 0). rewrite R, Rabs_R0. apply bpow_ge_0. }
  split; [apply of_Z_ok; vm_compute; discriminate|]. vm_compute. reflexivity.
Qed.
Print Assumptions C06_overflow_refuted.

Example C06_instance : storable (f64_of_Z 1) (f64_of_Z 1000) (f64_of_Z 123456).
Proof.
  destruct (of_Z_ok 1 ltac:(lia)) as (_ & R1). destruct (of_Z_ok 1000 ltac:(lia)) as (_ & R2). destruct (of_Z_ok 123456 ltac:(lia)) as (F & R3).
  split; [exact F|]. rewrite R1, R2, R3, Rabs_R1, Rabs_pos_eq; lra.
Qed.

(** ** C07: attributes survive the move.
    [layout_ok h]: the schema of [h] matches its format (met by every header
    whose schema was built through the API, [C07_headers] below). *)
Theorem C07_attributes : forall p h, point_wf p -> layout_ok h -> target_ok h -> coords_fit p h ->
  exists p', set_header p h = Ok p' /\ p_hdr p' = h /\ point_wf p' /\ Z.of_nat (length (p_data p')) = get_record_length h /\
    forall a, is_raw a = false -> attr_range (get_format h) a <> None ->
      (get_record_length h = Z.of_nat (length (p_data p)) -> attr_range (get_format h) a = attr_range (p_format p) a) ->
      api_get a p' = kept p a.
Proof.
  intros p h W L T C. destruct (list_eq_dec Z.eq_dec (p_data p) (repeat 0 (length (p_data p)))) as [E|E].
  - destruct (fresh_wf h L) as (Wn & An). exists (point_new h). rewrite set_header_eq. rewrite (proj2 (Z.eqb_eq _ _)) by (apply zsum_zero; [apply W|exact E]).
    split; [reflexivity|]. split; [reflexivity|]. split; [exact Wn|]. split.
    { unfold point_new. cbn [p_data]. rewrite repeat_length. pose proof (record_length_range h). lia. }
    intros a Ra Pa _. rewrite zero_kept by assumption. rewrite An by exact Pa. destruct a; reflexivity.
  - destruct (Z.eq_dec (get_record_length h) (Z.of_nat (length (p_data p)))) as [El|El].
    + destruct (move_same_length p h W L T C E El) as (p' & Es & (O1 & O2 & O3) & _ & _ & A & _).
      exists p'. split; [exact Es|]. split; [exact O1|]. split; [exact O2|]. split; [exact O3|].
      intros a Ra Pa Pl. rewrite A by assumption. apply same_place; auto.
    + destruct (move_other_length p h W L T C E El) as (p' & Es & (O1 & O2 & O3) & _ & A).
      exists p'. split; [exact Es|]. split; [exact O1|]. split; [exact O2|]. split; [exact O3|]. intros a Ra Pa _. now apply A.
Qed.
Print Assumptions C07_attributes.

(** Same record length: also every byte behind the standard fields stays. *)
Theorem C07_custom_bytes : forall p h, point_wf p -> layout_ok h -> target_ok h -> coords_fit p h ->
  p_data p <> repeat 0 (length (p_data p)) -> get_record_length h = Z.of_nat (length (p_data p)) ->
  exists p', set_header p h = Ok p' /\
    forall i, (Z.to_nat (format_bytes (get_format h)) <= i)%nat -> nth_error (p_data p') i = nth_error (p_data p) i.
Proof.
  intros p h W L T C E El. destruct (move_same_length p h W L T C E El) as (p' & Es & _ & _ & _ & _ & B). eauto.
Qed.
Print Assumptions C07_custom_bytes.

(** Which headers qualify: any schema history of C13. *)
Theorem C07_headers : forall fmt os s0 s h, 0 <= fmt <= 3 -> Z.of_nat (length os) < 2 ^ 29 -> sops_ok (std_fields fmt) os ->
  schema_new fmt = Ok s0 -> sops_run s0 os = Ok s -> h_schema h = s ->
  total_bits (fold_left sop_spec os (std_fields fmt)) < 8 * 2 ^ 16 -> layout_ok h.
Proof.
  intros fmt os s0 s h Hf Hl Ho E0 E Hh Ht. destruct (sinv_new fmt Hf) as (s0' & E0' & I0 & _). rewrite E0 in E0'. apply Writer_Append.Ok_inj in E0'. subst s0'.
  destruct (sinv_run os 0 s0 _ ltac:(lia) ltac:(lia) I0 Ho) as (s' & E' & I1). rewrite E in E'. apply Writer_Append.Ok_inj in E'. subst s'.
  apply (sinv_layout _ h _ ltac:(rewrite Hh; exact I1) Ht).
Qed.
Print Assumptions C07_headers.

(** The condition on equal lengths is needed: a format 2 record with an 8 byte
    custom dimension has the length of a format 3 record; its bytes are kept as
    they are, so the colour both formats have changes. *)
Definition wide2 : header :=
  let h := scaled_header 2 (f64_of_Z 1) (f64_of_Z 0) in h_upd_schema h (add_dimension (h_schema h) (user_dim "extra" 64 true false true)).
Lemma scaled_target fmt z : Z.abs z <= 2 ^ 50 -> target_ok (scaled_header fmt (f64_of_Z 1) (f64_of_Z z)).
Proof. intros H ax. destruct (small_offset z H) as (F & B). destruct ax; (split; [exact one_scale|split; [exact F|exact B]]). Qed.
Lemma scaled_layout fmt s o : 0 <= fmt <= 3 -> layout_ok (scaled_header fmt s o).
Proof.
  intros Hf. destruct (sinv_new fmt Hf) as (s0 & E0 & I0 & _). apply (sinv_layout 0 _ (std_fields fmt)).
  - change (h_schema (scaled_header fmt s o)) with (get_ok (h_schema (sample_header 2)) (schema_new fmt)). rewrite E0. exact I0.
  - rewrite total_std by exact Hf. unfold std_length. repeat destruct (_ =? _); reflexivity.
Qed.
Lemma int_coords_fit p h z z' : (forall ax, scale_of ax (p_hdr p) = f64_of_Z 1 /\ offset_of ax (p_hdr p) = f64_of_Z z) ->
  (forall ax, scale_of ax h = f64_of_Z 1 /\ offset_of ax h = f64_of_Z z') ->
  (forall ax n, api_get (raw_attr ax) p = Ok n -> Z.abs n <= 1000000000) -> Z.abs z <= 1000000 -> Z.abs z' <= 1000000 -> coords_fit p h.
Proof.
  intros H1 H2 H3 Bz Bz' ax x G. rewrite get_coord_raw in G. destruct (api_get (raw_attr ax) p) as [n| |] eqn:E; try discriminate. cbn [obind] in G.
  apply Writer_Append.Ok_inj in G. subst x. destruct (H1 ax) as (-> & ->). destruct (H2 ax) as (-> & ->). specialize (H3 _ _ E).
  assert (O : offset_ok (f64_of_Z z)).
  { destruct (of_Z_ok z ltac:(lia)) as (F & R). split; [exact F|]. rewrite R, <- abs_IZR. apply Rle_trans with (bpow radix2 50); [|apply bpow_le; lia].
    change (bpow radix2 50) with (IZR 1125899906842624). apply IZR_le. lia. }
  assert (Bn : (Rabs (IZR n) <= 2147483648)%R) by (rewrite <- abs_IZR; apply IZR_le; lia).
  destruct (descale_err (f64_of_Z 1) (f64_of_Z z) n one_scale O Bn) as (F & D).
  split; [exact F|]. destruct (of_Z_ok 1 ltac:(lia)) as (_ & R1). destruct (of_Z_ok z ltac:(lia)) as (_ & Rz). destruct (of_Z_ok z' ltac:(lia)) as (_ & Rz').
  rewrite R1, Rz, Rabs_R1 in *. rewrite Rz'. rewrite <- abs_IZR in D.
  assert (A1 : (IZR (Z.abs z) <= 1000000)%R) by (apply IZR_le; lia). assert (A2 : (-1000000000 <= IZR n <= 1000000000)%R) by (split; apply IZR_le; lia).
  assert (A3 : (-1000000 <= IZR z <= 1000000)%R) by (split; apply IZR_le; lia). assert (A4 : (-1000000 <= IZR z' <= 1000000)%R) by (split; apply IZR_le; lia).
  apply rabs in D. unfold u64 in D. apply Rabs_le. lra.
Qed.

Definition wide_point : point := mkPoint (le_enc 4 5 ++ repeat 0 16 ++ [7;0; 8;0; 9;0] ++ [1;2;3;4;5;6;7;8]) wide2.
Lemma wide2_layout : layout_ok wide2.
Proof.
  destruct (sinv_new 2 ltac:(lia)) as (s0 & E0 & I0 & _).
  apply (C07_headers 2 [SOAdd "extra" 64 true false true] s0 (add_dimension s0 (user_dim "extra" 64 true false true)) wide2); try (cbn; lia); auto.
  - cbn [sops_ok sop_ok]. assert (D : forall (n : string) l, existsb (String.eqb n) l = false -> ~ In n l).
    { intros n l H Hin. assert (existsb (String.eqb n) l = true); [|congruence]. apply existsb_exists. exists n. split; [exact Hin|apply String.eqb_refl]. }
    split; [|exact I]. split; [lia|]. split; [reflexivity|]. split; apply D; vm_compute; reflexivity.
  - change (h_schema wide2) with (add_dimension (get_ok (h_schema (sample_header 2)) (schema_new 2)) (user_dim "extra" 64 true false true)). now rewrite E0.
Qed.
Lemma wide_point_wf : point_wf wide_point.
Proof. split; [vm_compute; split; discriminate|]. split; [apply bytes_okb_ok; vm_compute; reflexivity|vm_compute; discriminate]. Qed.

Theorem C07_same_length_refuted : exists p h,
  point_wf p /\ layout_ok (p_hdr p) /\ layout_ok h /\ target_ok h /\ coords_fit p h /\
  attr_range (p_format p) ARed <> None /\ attr_range (get_format h) ARed <> None /\
  api_get ARed p = Ok 7 /\ (let! p' := set_header p h in api_get ARed p') = Ok 1027.
Proof.
  exists wide_point, (scaled_header 3 (f64_of_Z 1) (f64_of_Z 0)).
  split; [exact wide_point_wf|]. split; [exact wide2_layout|]. split; [apply scaled_layout; lia|]. split; [apply scaled_target; lia|].
  split. { apply (int_coords_fit _ _ 0 0); try lia; try (intros [| |]; split; reflexivity).
    intros [| |] n G; vm_compute in G; injection G as <-; vm_compute; discriminate. }
  split; [vm_compute; discriminate|]. split; [vm_compute; discriminate|]. split; vm_compute; reflexivity.
Qed.
Print Assumptions C07_same_length_refuted.

(** Dimensions of the user are not copied when the length changes, even when
    both headers declare them: "extra" reads 8,7,...,1 before and 0 after. *)
Definition wide0 : header :=
  let h := scaled_header 0 (f64_of_Z 1) (f64_of_Z 0) in h_upd_schema h (add_dimension (h_schema h) (user_dim "extra" 64 true false true)).
Theorem C07_custom_refuted : exists p h d d',
  point_wf p /\ get_dimension (h_schema (p_hdr p)) "extra" = Some d /\ get_dimension (h_schema h) "extra" = Some d' /\
  dim_bytesize d = dim_bytesize d' /\
  firstn 8 (skipn (Z.to_nat (d_byteoff d)) (p_data p)) = [1;2;3;4;5;6;7;8] /\
  (let! p' := set_header p h in Ok (firstn 8 (skipn (Z.to_nat (d_byteoff d')) (p_data p')))) = Ok [0;0;0;0;0;0;0;0].
Proof.
  exists wide_point, wide0. do 2 eexists. split; [exact wide_point_wf|].
  split; [vm_compute; reflexivity|]. split; [vm_compute; reflexivity|]. split; [vm_compute; reflexivity|]. split; vm_compute; reflexivity.
Qed.
Print Assumptions C07_custom_refuted.

(** ** C08 *)
Theorem C08_world_coordinates : forall p h, point_wf p -> layout_ok h -> target_ok h -> coords_fit p h ->
  (forall ax, scale_ok (scale_of ax (p_hdr p)) /\ offset_ok (offset_of ax (p_hdr p))) ->
  p_data p <> repeat 0 (length (p_data p)) ->
  same_scaling h (p_hdr p) \/ scaling_apart h (p_hdr p) ->
  exists p', set_header p h = Ok p' /\ forall ax x, get_coord ax p = Ok x -> exists x', get_coord ax p' = Ok x' /\
    (Rabs (f64_R x' - f64_R x) <= quantum (scale_of ax h) (offset_of ax h))%R.
Proof.
  intros p h W L T C T2 E D. destruct (Z.eq_dec (get_record_length h) (Z.of_nat (length (p_data p)))) as [El|El].
  - destruct (move_same_length p h W L T C E El) as (p' & Es & (O1 & O2 & O3) & M1 & M2 & A & _). exists p'. split; [exact Es|].
    destruct D as [D|D].
    + assert (DF : scaling_differs h (p_hdr p) = false).
      { apply same_not_differs; [exact D|]. intros ax. destruct (T2 ax) as ((F1 & _) & (F2 & _)). auto. }
      specialize (M2 DF). intros ax x G. exists x. destruct (D ax) as (D1 & D2). split.
      * rewrite get_coord_raw in G |- *. rewrite O1, D1, D2. rewrite <- G. f_equal.
        destruct ax; cbn [raw_attr api_get]; unfold get_raw_x, get_raw_y, get_raw_z; now rewrite M2.
      * replace (f64_R x - f64_R x)%R with 0%R by ring. rewrite Rabs_R0. unfold quantum.
        apply Rplus_le_le_0_compat; apply Rmult_le_pos; try apply Rabs_pos; unfold u64; lra.
    + apply M1. apply apart_differs; auto.
  - destruct (move_other_length p h W L T C E El) as (p' & Es & _ & M & _). eauto.
Qed.
Print Assumptions C08_world_coordinates.

(** An all-zero record is not moved but replaced: a point at (1000, 1000, 1000)
    ends up at (500, 500, 500). *)
Theorem C08_zero_record_refuted : exists p h,
  point_wf p /\ layout_ok h /\ target_ok h /\ coords_fit p h /\ scaling_apart h (p_hdr p) /\
  omap (fun x => f64_eq x (f64_of_Z 1000)) (get_x p) = Ok true /\
  (let! p' := set_header p h in omap (fun x => f64_eq x (f64_of_Z 500)) (get_x p')) = Ok true.
Proof.
  exists (mkPoint (repeat 0 20) (scaled_header 0 (f64_of_Z 1) (f64_of_Z 1000))), (scaled_header 0 (f64_of_Z 1) (f64_of_Z 500)).
  split. { split; [vm_compute; split; discriminate|]. split; [apply bytes_okb_ok; vm_compute; reflexivity|vm_compute; discriminate]. }
  split; [apply scaled_layout; lia|]. split; [apply scaled_target; lia|].
  split. { apply (int_coords_fit _ _ 1000 500); try lia; try (intros [| |]; split; reflexivity).
    intros [| |] n G; vm_compute in G; injection G as <-; vm_compute; discriminate. }
  split. { exists AxX. right. change (bpow radix2 (-51) <= Rabs (f64_R (f64_of_Z 500) - f64_R (f64_of_Z 1000)))%R.
    destruct (of_Z_ok 1000 ltac:(lia)) as (_ & ->). destruct (of_Z_ok 500 ltac:(lia)) as (_ & ->). rewrite Rabs_left by lra.
    apply Rle_trans with (bpow radix2 0); [apply bpow_le; lia|]. change (bpow radix2 0) with 1%R. lra. }
  split; vm_compute; reflexivity.
Qed.
Print Assumptions C08_zero_record_refuted.

(** Scales that differ by at most 2^-52 count as equal, however small they are:
    here the new scale is half the old one and the coordinate is halved. *)
Theorem C08_small_scales_refuted : exists p h,
  point_wf p /\ layout_ok h /\ f64_eq (scale_of AxX (p_hdr p)) (scale_of AxX h) = false /\
  omap (fun x => f64_eq x (f64_of_me 1 (-22))) (get_x p) = Ok true /\
  (let! p' := set_header p h in omap (fun x => f64_eq x (f64_of_me 1 (-23))) (get_x p')) = Ok true.
Proof.
  exists (raw_point (scaled_header 0 (f64_of_me 1 (-52)) (f64_of_Z 0)) (2 ^ 30)), (scaled_header 0 (f64_of_me 1 (-53)) (f64_of_Z 0)).
  split. { split; [vm_compute; split; discriminate|]. split; [apply bytes_okb_ok; vm_compute; reflexivity|vm_compute; discriminate]. }
  split; [apply scaled_layout; lia|]. repeat split; vm_compute; reflexivity.
Qed.
Print Assumptions C08_small_scales_refuted.

Example C08_instance : let p := raw_point (scaled_header 0 (f64_of_Z 1) (f64_of_Z 1000)) (-7) in let h := scaled_header 3 (f64_of_Z 1) (f64_of_Z 500) in
  point_wf p /\ layout_ok h /\ target_ok h /\ coords_fit p h /\ scaling_apart h (p_hdr p) /\
  (let! p' := set_header p h in let! n := get_raw_x p' in let! f := get_flags p' in Ok (n, f, length (p_data p'))) = Ok (493, 1, 34%nat).
Proof.
  cbv zeta. split. { split; [vm_compute; split; discriminate|]. split; [apply bytes_okb_ok; vm_compute; reflexivity|vm_compute; discriminate]. }
  split; [apply scaled_layout; lia|]. split; [apply scaled_target; lia|].
  split. { apply (int_coords_fit _ _ 1000 500); try lia; try (intros [| |]; split; reflexivity).
    intros [| |] n G; vm_compute in G; injection G as <-; vm_compute; discriminate. }
  split. { exists AxX. right. change (bpow radix2 (-51) <= Rabs (f64_R (f64_of_Z 500) - f64_R (f64_of_Z 1000)))%R.
    destruct (of_Z_ok 1000 ltac:(lia)) as (_ & ->). destruct (of_Z_ok 500 ltac:(lia)) as (_ & ->). rewrite Rabs_left by lra.
    apply Rle_trans with (bpow radix2 0); [apply bpow_le; lia|]. change (bpow radix2 0) with 1%R. lra. }
  vm_compute. reflexivity.
Qed.

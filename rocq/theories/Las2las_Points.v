(** The points of a file as a header's points, and their extreme coordinates. *)
From Coq Require Import ZArith List Bool Lia String Reals Lra.
From Coq Require Import ZifyBool ZifyNat.
Import ListNotations.
From Flocq Require Import Core BinarySingleNaN Binary Bits.
From Verif Require Import Outcome Bytes Float64 Float64_Proofs Bounds_Proofs Schema_Model Schema_Spec Schema_Proofs Header_Model Point_Model Point_Spec Point_Api Point_Proofs Point_Hist
  Coord_Api Coord_Proofs Coord_Header Stream_Model IO_Spec Reader_Proofs Reader_Model Reader_Spec Reader_Schema Reader_Open Reader_Hist Rewrite_Proofs Prop_Reader Writer_Api Las2las_Copy
  Summary_Model Summary_Spec Summary_Proofs Prop_Summary Text_Model Text_Proofs Las2las_Spec Las2las_Model Las2las_Summary.
Local Open Scope Z_scope.
Local Notation length := List.length (only parsing).

Lemma file_layout F h : plain_file F -> shows_file F h -> layout_ok h.
Proof.
  intros HP (_ & _ & _ & _ & _ & I & _). pose proof HP as (HF & _ & HL & _). assert (Hf : 0 <= u_at F 104 1 <= 3) by (pose proof (u_at_range F 104 1 (proj1 HF)); split; [lia|apply HF]).
  apply (sinv_layout 8 h (layout_of F) I). unfold layout_of. unfold f_reclen in HL. rewrite HL.
  assert (E : extra_fields (u_at F 104 1) (std_length (u_at F 104 1)) = []).
  { unfold extra_fields. now rewrite Z.eqb_refl. }
  rewrite E, app_nil_r, total_std by exact Hf. unfold std_length. repeat destruct (_ =? _); reflexivity.
Qed.

Lemma file_point F h d : plain_file F -> shows_file F h -> bytes_ok d -> Z.of_nat (length d) = f_reclen F -> of_header h (mkPoint d h).
Proof.
  intros HP Sh B L. split; [|reflexivity]. apply layout_point; [now apply (file_layout F)|exact B|]. now rewrite (shows_reclen F h Sh).
Qed.

(** ** coordinates *)
Section R.
Local Open Scope R_scope.
Lemma descale_R s o n : scale_ok s -> offset_ok o -> in_signed 32 n ->
  f64_fin (descale s o n) = true /\ f64_R (descale s o n) = rnd64 (rnd64 (IZR n * f64_R s) + f64_R o) /\ Rabs (f64_R (descale s o n)) <= bpow radix2 999.
Proof.
  intros (Fs & S1 & S2) (Fo & O1) Bn. unfold descale. unfold in_signed in Bn. cbn [Z.sub Z.pow Z.pow_pos Pos.iter] in Bn.
  assert (Rn' : Rabs (IZR n) <= bpow radix2 31).
  { rewrite <- abs_IZR. change (bpow radix2 31) with (IZR 2147483648). apply IZR_le. change (2 ^ (32 - 1))%Z with 2147483648%Z in Bn. lia. }
  assert (Zn : (Z.abs n <= 2 ^ 53)%Z) by (change (2 ^ (32 - 1))%Z with 2147483648%Z in Bn; lia).
  destruct (of_Z_ok n Zn) as (Fn & Rn).
  assert (G : forall k, (k <= 1000)%Z -> bpow radix2 k <= bpow radix2 1000) by (intros; now apply bpow_le).
  assert (NS : Rabs (IZR n * f64_R s) <= bpow radix2 931).
  { rewrite Rabs_mult. change 931%Z with (31 + 900)%Z. rewrite bpow_plus. apply Rmult_le_compat; try apply Rabs_pos; assumption. }
  destruct (mul_ok (f64_of_Z n) s Fn Fs) as (Fm & Rm). { rewrite Rn. apply Rle_trans with (1 := NS). apply G. lia. }
  rewrite Rn in Rm.
  assert (PB : forall x k, (-1000 <= k <= 1000)%Z -> Rabs x <= bpow radix2 k -> Rabs (rnd64 x) <= bpow radix2 k).
  { intros x k Hk Hx. unfold rnd64. apply abs_round_le_generic; [apply fexp_correct; reflexivity|apply valid_rnd_round_mode| |exact Hx].
    apply generic_format_bpow. unfold SpecFloat.fexp, SpecFloat.emin. lia. }
  pose proof (PB _ 931%Z ltac:(lia) NS) as A1.
  assert (AO : Rabs (rnd64 (IZR n * f64_R s) + f64_R o) <= bpow radix2 951).
  { eapply Rle_trans; [apply Rabs_triang|]. replace (bpow radix2 951) with (bpow radix2 950 + bpow radix2 950).
    - apply Rplus_le_compat; [|exact O1]. apply Rle_trans with (1 := A1). apply bpow_le. lia.
    - change 951%Z with (1 + 950)%Z. rewrite bpow_plus. change (bpow radix2 1) with 2. ring. }
  destruct (add_ok (f64_mul (f64_of_Z n) s) o Fm Fo) as (Fa & Ra). { rewrite Rm. apply Rle_trans with (1 := AO). apply G. lia. }
  split; [exact Fa|]. rewrite Rm in Ra. split; [exact Ra|]. rewrite Ra. apply Rle_trans with (bpow radix2 951); [|apply bpow_le; lia]. apply PB; [lia|exact AO].
Qed.
Lemma descale_le s o m n : scale_ok s -> f64_lt f64_zero s = true -> offset_ok o -> in_signed 32 m -> in_signed 32 n -> (m <= n)%Z ->
  f64_le (descale s o m) (descale s o n) = true.
Proof.
  intros Hs Ps Ho Hm Hn L. destruct (descale_R s o m Hs Ho Hm) as (F1 & R1 & _). destruct (descale_R s o n Hs Ho Hn) as (F2 & R2 & _).
  apply f64_le_R; [exact F1|exact F2|]. rewrite R1, R2. apply rnd64_le, Rplus_le_compat_r, rnd64_le, Rmult_le_compat_r; [|now apply IZR_le].
  apply f64_lt_R in Ps; [|apply f64_zero_R|apply Hs]. rewrite (proj2 f64_zero_R) in Ps. lra.
Qed.
End R.

Definition sane_header (h : header) : Prop :=
  forall ax, scale_ok (scale_of ax h) /\ f64_lt f64_zero (scale_of ax h) = true /\ offset_ok (offset_of ax h).

Lemma raw_axis ax : axis_attr (raw_attr ax).
Proof. destruct ax; cbn; unfold axis_attr; tauto. Qed.
Lemma coord_of_raw ax p v : api_get (raw_attr ax) p = Ok v -> get_coord ax p = Ok (descale (scale_of ax (p_hdr p)) (offset_of ax (p_hdr p)) v).
Proof. intros E. rewrite get_coord_raw, E. reflexivity. Qed.
Lemma raw_present fmt ax : attr_range fmt (raw_attr ax) <> None.
Proof. destruct ax; cbn; discriminate. Qed.

Lemma view_raw h ps ax : Forall (of_header h) ps -> forall v, In v (vw (raw_attr ax) ps) ->
  in_signed 32 v /\ exists p, In p ps /\ api_get (raw_attr ax) p = Ok v /\ p_hdr p = h.
Proof.
  intros F v Hv. unfold vw in Hv. apply in_map_iff in Hv. destruct Hv as (p & <- & Hp). rewrite Forall_forall in F. destruct (F p Hp) as (W & Eh).
  pose proof (vw_get p (raw_attr ax) W (raw_present 0 ax)) as G. destruct (raw_get p ax W) as (v & E & R). rewrite G in E. apply Writer_Append.Ok_inj in E.
  split; [rewrite E; exact R|]. exists p. auto.
Qed.

Lemma corner_axis h ps ax lo : sane_header h -> Forall (of_header h) ps -> least (vw (raw_attr ax) ps) lo ->
  least_coord ps ax (descale (scale_of ax h) (offset_of ax h) lo).
Proof.
  intros S F (Hin & Hmin). destruct (S ax) as (S1 & S2 & S3). destruct (view_raw h ps ax F lo Hin) as (R & p & Hp & E & Eh). split.
  - exists p. split; [exact Hp|]. rewrite (coord_of_raw ax p lo E), Eh. reflexivity.
  - intros q w Hq Ew. rewrite Forall_forall in F. destruct (F q Hq) as (W & Eq).
    pose proof (vw_get q (raw_attr ax) W (raw_present 0 ax)) as G. rewrite (coord_of_raw ax q _ G), Eq in Ew. apply Writer_Append.Ok_inj in Ew. subst w.
    assert (I : In (view_of q (raw_attr ax)) (vw (raw_attr ax) ps)) by (unfold vw; now apply in_map with (f := fun p => view_of p (raw_attr ax))).
    apply descale_le; auto. apply (proj1 (view_raw h ps ax ltac:(rewrite Forall_forall; exact F) _ I)).
Qed.
Lemma corner_axis_max h ps ax hi : sane_header h -> Forall (of_header h) ps -> greatest (vw (raw_attr ax) ps) hi ->
  greatest_coord ps ax (descale (scale_of ax h) (offset_of ax h) hi).
Proof.
  intros S F (Hin & Hmin). destruct (S ax) as (S1 & S2 & S3). destruct (view_raw h ps ax F hi Hin) as (R & p & Hp & E & Eh). split.
  - exists p. split; [exact Hp|]. rewrite (coord_of_raw ax p hi E), Eh. reflexivity.
  - intros q w Hq Ew. rewrite Forall_forall in F. destruct (F q Hq) as (W & Eq).
    pose proof (vw_get q (raw_attr ax) W (raw_present 0 ax)) as G. rewrite (coord_of_raw ax q _ G), Eq in Ew. apply Writer_Append.Ok_inj in Ew. subst w.
    assert (I : In (view_of q (raw_attr ax)) (vw (raw_attr ax) ps)) by (unfold vw; now apply in_map with (f := fun p => view_of p (raw_attr ax))).
    apply descale_le; auto. apply (proj1 (view_raw h ps ax ltac:(rewrite Forall_forall; exact F) _ I)).
Qed.

Lemma text_of_descale s o n : scale_ok s -> offset_ok o -> in_signed 32 n -> exists y, text16 (descale s o n) = Ok y.
Proof. intros Hs Ho Hn. destruct (descale_R s o n Hs Ho Hn) as (Fd & _ & B). destruct (text16_R _ Fd B) as (y & E & _). eauto. Qed.

Lemma tree_ok h mn v : sane_header h -> p_hdr mn = h -> (forall ax, in_signed 32 (v ax) /\ api_get (raw_attr ax) mn = Ok (v ax)) ->
  exists x y z, tree_coords text16 mn = Ok (x, y, z) /\
    text16 (descale (scale_of AxX h) (offset_of AxX h) (v AxX)) = Ok x /\ text16 (descale (scale_of AxY h) (offset_of AxY h) (v AxY)) = Ok y /\
    text16 (descale (scale_of AxZ h) (offset_of AxZ h) (v AxZ)) = Ok z.
Proof.
  intros S Eh V.
  assert (K : forall ax, exists y, get_coord ax mn = Ok (descale (scale_of ax h) (offset_of ax h) (v ax)) /\ text16 (descale (scale_of ax h) (offset_of ax h) (v ax)) = Ok y).
  { intros ax. destruct (S ax) as (S1 & _ & S3). destruct (V ax) as (R & G). destruct (text_of_descale _ _ _ S1 S3 R) as (y & E). exists y. split; [|exact E].
    rewrite (coord_of_raw ax mn _ G), Eh. reflexivity. }
  destruct (K AxX) as (x & X1 & X2). destruct (K AxY) as (y & Y1 & Y2). destruct (K AxZ) as (z & Z1 & Z2).
  exists x, y, z. split; [|auto]. unfold tree_coords. cbn [get_coord] in X1, Y1, Z1. rewrite X1, Y1, Z1. cbn [obind]. rewrite X2, Y2, Z2. reflexivity.
Qed.

Lemma corners h q ps mn mx : sane_header h -> cinv h q ps -> Forall (of_header h) ps -> q_mm q = Some (mn, mx) ->
  exists x0 y0 z0 x1 y1 z1, tree_coords text16 mn = Ok (x0, y0, z0) /\ tree_coords text16 mx = Ok (x1, y1, z1) /\
    bounds_of ps (bits3 (x1, y1, z1)) (bits3 (x0, y0, z0)).
Proof.
  intros S (_ & _ & _ & M) F Em. rewrite Em in M. destruct M as (q0 & r0 & lo & hi & H1 & H2 & S1 & S2 & L).
  assert (V : forall ax, (in_signed 32 (lo (raw_attr ax)) /\ api_get (raw_attr ax) mn = Ok (lo (raw_attr ax))) /\ (in_signed 32 (hi (raw_attr ax)) /\ api_get (raw_attr ax) mx = Ok (hi (raw_attr ax)))).
  { intros ax. destruct (L (raw_attr ax) (raw_axis ax)) as ((I1 & _) & (I2 & _)). split; split.
    - exact (proj1 (view_raw h ps ax F _ I1)).
    - apply (st_get q0 mn lo (raw_attr ax) S1); [destruct ax; discriminate|apply raw_present].
    - exact (proj1 (view_raw h ps ax F _ I2)).
    - apply (st_get r0 mx hi (raw_attr ax) S2); [destruct ax; discriminate|apply raw_present]. }
  destruct (tree_ok h mn (fun ax => lo (raw_attr ax)) S) as (x0 & y0 & z0 & E0 & X0 & Y0 & Z0); [destruct S1 as (_ & E & _); congruence|intros ax; apply V|].
  destruct (tree_ok h mx (fun ax => hi (raw_attr ax)) S) as (x1 & y1 & z1 & E1 & X1 & Y1 & Z1); [destruct S2 as (_ & E & _); congruence|intros ax; apply V|].
  exists x0, y0, z0, x1, y1, z1. split; [exact E0|]. split; [exact E1|].
  intros ax. destruct (L (raw_attr ax) (raw_axis ax)) as (L1 & L2).
  pose proof (corner_axis h ps ax _ S F L1) as C1. pose proof (corner_axis_max h ps ax _ S F L2) as C2.
  destruct ax; [eexists; exists x0; eexists; exists x1|eexists; exists y0; eexists; exists y1|eexists; exists z0; eexists; exists z1]; (split; [exact C1|]); (split; [exact C2|]); (split; [assumption|]); (split; [assumption|]); split; reflexivity.
Qed.

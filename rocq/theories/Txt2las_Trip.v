(** las2txt and back: the numbers. *)
From Coq Require Import ZArith List Bool String Ascii Lia Reals Lra.
Import ListNotations.
From Flocq Require Import Core BinarySingleNaN Binary Bits.
From Verif Require Import Outcome Bytes Float64 Float64_Proofs Header_Model Point_Spec Point_Proofs Reader_Spec IO_Spec
  Coord_Api Coord_Header Cols_Spec Txt_Spec Txt_Prec Txt_Proofs Prop_Txt Txt2las_Spec Txt2las_Fields Txt2las_Run.
Local Open Scope list_scope.
Local Open Scope Z_scope.
Local Notation length := List.length (only parsing).

Section NUM.
Local Open Scope R_scope.
Lemma trip_bounds (s o T n K : R) : 0 < T -> Rabs (s - / T) <= / 2 ^ 52 * Rabs (/ T) -> Rabs (o - K / T) <= / 2 ^ 52 * Rabs (K / T) -> Rabs K <= 17592186044416 -> Rabs n <= 2147483645 ->
  Rabs ((n + K) / T - o) <= 2147483646 * Rabs s /\ Rabs (n * s + o - (n + K) / T) <= Rabs s / 16 /\ u64 * Rabs ((n + K) / T) <= Rabs s / 8.
Proof.
  intros T0 Cs Co BK Bn. assert (I0 : 0 < / T) by now apply Rinv_0_lt_compat. set (i := / T) in *.
  assert (Ks : K / T = K * i) by reflexivity. rewrite Ks in Co. replace ((n + K) / T) with ((n + K) * i) by reflexivity.
  rewrite Rabs_mult in Co. rewrite (Rabs_pos_eq i ltac:(lra)) in Cs, Co.
  set (e := / 2 ^ 52) in *. assert (E : 0 < e <= / 4503599627370496) by (unfold e; replace (2 ^ 52) with 4503599627370496 by (simpl; lra); lra).
  assert (S1 : (1 - e) * i <= Rabs s). { pose proof (Rabs_triang_inv s (s - i)). replace (s - (s - i)) with i in H by ring. pose proof (Rabs_triang (s - (s - i)) (s - i)). replace (s - (s - i) + (s - i)) with s in H0 by ring.
    pose proof (Rabs_triang s (- (s - i))). replace (s + - (s - i)) with i in H1 by ring. rewrite Rabs_Ropp, (Rabs_pos_eq i ltac:(lra)) in H1. lra. }
  assert (D1 : Rabs (o - K * i) <= 17592186044416 * e * i).
  { eapply Rle_trans; [exact Co|]. replace (e * (Rabs K * i)) with (Rabs K * (e * i)) by ring. rewrite Rmult_assoc. apply Rmult_le_compat_r; [|exact BK]. apply Rmult_le_pos; lra. }
  assert (D2 : Rabs (n * (s - i)) <= 2147483645 * e * i).
  { rewrite Rabs_mult. eapply Rle_trans; [apply Rmult_le_compat_l; [apply Rabs_pos|exact Cs]|]. rewrite Rmult_assoc. apply Rmult_le_compat_r; [|exact Bn]. apply Rmult_le_pos; lra. }
  assert (EI : 0 <= e * i <= / 4503599627370496 * i). { split; [apply Rmult_le_pos; lra|apply Rmult_le_compat_r; lra]. }
  assert (S2 : (1 - / 4503599627370496) * i <= Rabs s) by lra.
  assert (N1 : Rabs (n * i) <= 2147483645 * i). { rewrite Rabs_mult, (Rabs_pos_eq i ltac:(lra)). apply Rmult_le_compat_r; lra. }
  assert (N2 : Rabs (K * i) <= 17592186044416 * i). { rewrite Rabs_mult, (Rabs_pos_eq i ltac:(lra)). apply Rmult_le_compat_r; lra. }
  repeat split.
  - replace ((n + K) * i - o) with (n * i + - (o - K * i)) by ring. eapply Rle_trans; [apply Rabs_triang|]. rewrite Rabs_Ropp. lra.
  - replace (n * s + o - (n + K) * i) with (n * (s - i) + (o - K * i)) by ring. eapply Rle_trans; [apply Rabs_triang|]. lra.
  - replace ((n + K) * i) with (n * i + K * i) by ring. pose proof (Rabs_triang (n * i) (K * i)). unfold u64.
    apply Rle_trans with (/ 9007199254740992 * (17594333528061 * i)); [apply Rmult_le_compat_l; lra|]. lra.
Qed.
Lemma ten_le p : (p <= 200)%nat -> / bpow radix2 800 <= / 10 ^ p.
Proof.
  intros P. apply Rinv_le; [apply pow_lt; lra|]. apply Rle_trans with (16 ^ p); [apply pow_incr; lra|].
  apply Rle_trans with (16 ^ 200); [apply Rle_pow; [lra|exact P]|]. rewrite <- IZR_Zpower by lia.
  replace 16 with (IZR 16) by reflexivity. rewrite pow_IZR. apply IZR_le. vm_compute. discriminate.
Qed.
Lemma trip_scaling s o p K : (1 <= p <= 200)%nat -> close s (/ 10 ^ p) -> close o (IZR K / 10 ^ p) -> (Z.abs K <= 2 ^ 44)%Z ->
  scale_ok s /\ f64_fin o = true /\ Rabs (f64_R o) <= 1125899906842624 * Rabs (f64_R s).
Proof.
  intros P (Fs & Cs) (Fo & Co) HK. pose proof (ten_le p ltac:(lia)) as TL. assert (T0 : 0 < 10 ^ p) by (apply pow_lt; lra). assert (I0 : 0 < / 10 ^ p) by now apply Rinv_0_lt_compat.
  assert (I1 : / 10 ^ p <= 1). { rewrite <- Rinv_1. apply Rinv_le; [lra|]. apply pow_R1_Rle. lra. }
  unfold Rdiv in Co. set (i := / 10 ^ p) in *. rewrite Rabs_mult in Co. rewrite (Rabs_pos_eq i ltac:(lra)) in Cs, Co.
  assert (BK : Rabs (IZR K) <= 17592186044416). { rewrite <- abs_IZR. apply IZR_le. change (2 ^ 44)%Z with 17592186044416%Z in HK. lia. }
  set (e := / 2 ^ 52) in *. assert (E : 0 < e <= / 4503599627370496) by (unfold e; replace (2 ^ 52) with 4503599627370496 by (simpl; lra); lra).
  assert (EI : 0 <= e * i <= / 4503599627370496 * i). { split; [apply Rmult_le_pos; lra|apply Rmult_le_compat_r; lra]. }
  assert (S1 : i - e * i <= Rabs (f64_R s) <= i + e * i).
  { pose proof (Rabs_triang (f64_R s) (- (f64_R s - i))) as H1. replace (f64_R s + - (f64_R s - i)) with i in H1 by ring. rewrite Rabs_Ropp, (Rabs_pos_eq i ltac:(lra)) in H1.
    pose proof (Rabs_triang i (f64_R s - i)) as H2. replace (i + (f64_R s - i)) with (f64_R s) in H2 by ring. rewrite (Rabs_pos_eq i ltac:(lra)) in H2. lra. }
  assert (O1 : Rabs (f64_R o) <= 17592186044416 * i + 17592186044416 * (e * i)).
  { replace (f64_R o) with ((f64_R o - IZR K * i) + IZR K * i) by ring. eapply Rle_trans; [apply Rabs_triang|]. rewrite Rabs_mult, (Rabs_pos_eq i ltac:(lra)).
    assert (A : Rabs (IZR K) * i <= 17592186044416 * i) by (apply Rmult_le_compat_r; lra).
    assert (B : e * (Rabs (IZR K) * i) <= 17592186044416 * (e * i)) by (replace (e * (Rabs (IZR K) * i)) with (Rabs (IZR K) * (e * i)) by ring; apply Rmult_le_compat_r; lra). lra. }
  split; [|split; [exact Fo|lra]]. split; [exact Fs|]. split.
  - apply Rle_trans with (bpow radix2 (-800) * / 2); [replace (/ 2) with (bpow radix2 (-1)) by (simpl; lra); rewrite <- bpow_plus; apply bpow_le; lia|].
    change (bpow radix2 (-800)) with (/ bpow radix2 800) || rewrite (bpow_opp radix2 800). lra.
  - apply Rle_trans with (bpow radix2 1); [|apply bpow_le; lia]. change (bpow radix2 1) with 2. lra.
Qed.
End NUM.

(** ** A printed row fits *)
Definition scales (F : list Z) : f64x3 := (file_scale F AxX, file_scale F AxY, file_scale F AxZ).
Definition offsets (F : list Z) : f64x3 := (file_offset F AxX, file_offset F AxY, file_offset F AxZ).
Lemma scales_axis F ax : axis_of (scales F) ax = file_scale F ax. Proof. destruct ax; reflexivity. Qed.
Lemma offsets_axis F ax : axis_of (offsets F) ax = file_offset F ax. Proof. destruct ax; reflexivity. Qed.
Definition trip_letter (c : ascii) : Prop := In c (list_ascii_of_string "xyzianrcupedRGB").
(** what txt2las gets of the field [a], letter [c] *)
Definition kept (F : list Z) (c : ascii) (a : attr) (rec : list Z) : Z := if Ascii.eqb c "c"%char then value F a rec mod 32 else value F a rec.
Lemma raw_small ax rec : in_signed 32 (raw_value (raw_attr ax) rec).
Proof. unfold raw_value. destruct (raw_range 0 ax) as (s & R & _). rewrite R. cbn [decode_bits]. apply Bytes.to_signed_range; lia. Qed.
Lemma trip_whole F i rec c a lo hi : stored_letter c = Some (a, lo, hi) -> whole_letter F i rec c = Some (kept F c a rec).
Proof. intros S. apply stored_cases in S. cbn [table_letters In] in S. repeat match type of S with _ \/ _ => destruct S as [S|S] | False => destruct S end; injection S as <- <- <- <-; reflexivity. Qed.
Lemma field_bound f a rec w s sg : attr_range f a = Some (s, w, sg) -> 0 <= w -> 0 <= field f a rec < 2 ^ w.
Proof. intros R W. unfold field. rewrite R. unfold bits_at. apply Z.mod_pos_bound. apply Z.pow_pos_nonneg; lia. Qed.
Lemma field_none f a rec : attr_range f a = None -> field f a rec = 0.
Proof. intros R. unfold field. now rewrite R. Qed.
Lemma trip_range F c a lo hi rec : stored_letter c = Some (a, lo, hi) -> lo <= kept F c a rec <= hi.
Proof.
  intros S. apply stored_cases in S. cbn [table_letters In] in S.
  assert (W : forall f a w, (forall s w' sg, attr_range f a = Some (s, w', sg) -> w' = w) -> 0 <= w -> 0 <= field f a rec < 2 ^ w).
  { intros f b w H W0. destruct (attr_range f b) as [[[s w'] sg]|] eqn:R; [rewrite <- (H s w' sg eq_refl) in W0 |- *; exact (field_bound f b rec w' s sg R W0)|]. rewrite (field_none f b rec R). pose proof (Z.pow_pos_nonneg 2 w ltac:(lia) W0). lia. }
  repeat match type of S with _ \/ _ => destruct S as [S|S] | False => destruct S end; injection S as <- <- <- <-; unfold kept;
    cbn [Ascii.eqb Bool.eqb value];
    try match goal with |- context [field (fmt F) ?b rec mod 32] => pose proof (Z.mod_pos_bound (field (fmt F) b rec) 32 ltac:(lia)); lia end;
    try match goal with |- _ <= field (fmt F) ?b rec <= 65535 => pose proof (W (fmt F) b 16 ltac:(intros s w' sg R; cbn [attr_range] in R; repeat match type of R with context [if ?x then _ else _] => destruct x end; try discriminate; congruence) ltac:(lia)); lia end;
    try match goal with |- _ <= field (fmt F) ?b rec <= 255 => pose proof (W (fmt F) b 8 ltac:(intros s w' sg R; cbn [attr_range] in R; congruence) ltac:(lia)); lia end;
    try match goal with |- _ <= field (fmt F) ?b rec <= 7 => pose proof (W (fmt F) b 3 ltac:(intros s w' sg R; cbn [attr_range] in R; congruence) ltac:(lia)); lia end;
    try match goal with |- _ <= field (fmt F) ?b rec <= 1 => pose proof (W (fmt F) b 1 ltac:(intros s w' sg R; cbn [attr_range] in R; congruence) ltac:(lia)); lia end.
  unfold raw_value. cbn [attr_range decode_bits]. pose proof (Bytes.to_signed_range 8 (bits_at (le_dec rec) 128 8) ltac:(lia)) as B. unfold in_signed in B. change (2 ^ (8 - 1)) with 128 in B. lia.
Qed.
Lemma trip_fits F pr p K i rec c t : decimal_file F p K -> (forall ax, decimals pr (axis_letter ax) = p ax \/ decimals pr (axis_letter ax) = S (p ax)) ->
  (forall ax, Z.abs (raw_value (raw_attr ax) rec) <= 2147483645) -> trip_letter c -> prints F pr i rec c t -> column_fits (scales F) (offsets F) c t.
Proof.
  intros DF PR SM TL P. unfold column_fits. destruct (double_letter c) as [ax|] eqn:D.
  - assert (C : c = axis_letter ax) by (apply double_cases in D; cbn in D; destruct D as [D|[D|[D|[]]]]; injection D as <- <-; reflexivity). subst c. clear D.
    destruct (DF ax) as (P1 & K1 & C1 & C2). destruct (exact_decimal (file_scale F ax) (file_offset F ax) (p ax) _ (K ax) (raw_value (raw_attr ax) rec) P1 (PR ax) C1 C2 K1 (raw_small ax rec)) as (FD & EX).
    assert (PP : f64_fin (coordinate F ax rec) = true -> exists m, number t = Some (m, decimals pr (axis_letter ax)) /\ nearest_decimal (decimals pr (axis_letter ax)) (f64_R (coordinate F ax rec)) m) by (destruct ax; exact P).
    destruct (PP FD) as (m & EM & NM). exists (IZR m / 10 ^ decimals pr (axis_letter ax))%R. split; [unfold decimal; rewrite EM; reflexivity|]. rewrite (EX m NM), scales_axis, offsets_axis.
    apply (trip_bounds (f64_R (file_scale F ax)) (f64_R (file_offset F ax)) (10 ^ p ax) (IZR (raw_value (raw_attr ax) rec)) (IZR (K ax))); [apply pow_lt; lra|exact (proj2 C1)|exact (proj2 C2)| |]; rewrite <- abs_IZR; apply IZR_le; [exact K1|exact (SM ax)].
  - destruct (stored_letter c) as [[[a lo] hi]|] eqn:SL.
    + exists (kept F c a rec). split; [|exact (trip_range F c a lo hi rec SL)]. unfold prints in P. rewrite (trip_whole F i rec c a lo hi SL) in P. exact P.
    + exfalso. unfold trip_letter in TL. cbn in TL. repeat match type of TL with _ \/ _ => destruct TL as [TL|TL] | False => destruct TL end; subst c; discriminate.
Qed.
Definition same_columns (F G : list Z) (parse : list ascii) (rec rec' : list Z) : Prop :=
  (forall ax, raw_value (raw_attr ax) rec' = raw_value (raw_attr ax) rec) /\
  (forall c a lo hi, stored_letter c = Some (a, lo, hi) -> In c parse -> value G a rec' = kept F c a rec).
Lemma trip_same F G pr p K i rec rec' parse row : decimal_file F p K -> (forall ax, decimals pr (axis_letter ax) = p ax \/ decimals pr (axis_letter ax) = S (p ax)) ->
  (forall ax, Z.abs (raw_value (raw_attr ax) rec) <= 2147483645) -> Forall2 (prints F pr i rec) parse row ->
  record_of_row G (scales F) (offsets F) parse row rec' -> same_columns F G parse rec rec'.
Proof.
  intros DF PR SM P (CO & ST & _). split.
  - intros ax. destruct (CO (axis_letter ax) ax ltac:(destruct ax; reflexivity)) as (t & x & LT & DT & (_ & EXACT)). pose proof (last_fits _ _ _ _ _ P LT) as PT.
    destruct (DF ax) as (P1 & K1 & C1 & C2). destruct (exact_decimal (file_scale F ax) (file_offset F ax) (p ax) _ (K ax) (raw_value (raw_attr ax) rec) P1 (PR ax) C1 C2 K1 (raw_small ax rec)) as (FD & EX).
    assert (PP : f64_fin (coordinate F ax rec) = true -> exists m, number t = Some (m, decimals pr (axis_letter ax)) /\ nearest_decimal (decimals pr (axis_letter ax)) (f64_R (coordinate F ax rec)) m) by (destruct ax; exact PT).
    destruct (PP FD) as (m & EM & NM). unfold decimal in DT. rewrite EM in DT. injection DT as <-.
    destruct (trip_bounds (f64_R (file_scale F ax)) (f64_R (file_offset F ax)) (10 ^ p ax) (IZR (raw_value (raw_attr ax) rec)) (IZR (K ax))) as (_ & B2 & B3);
      [apply pow_lt; lra|exact (proj2 C1)|exact (proj2 C2)|rewrite <- abs_IZR; apply IZR_le; exact K1|rewrite <- abs_IZR; apply IZR_le; exact (SM ax)|].
    apply EXACT; rewrite ?scales_axis, ?offsets_axis, (EX m NM); assumption.
  - intros c a lo hi SL IC. specialize (ST c a lo hi SL). destruct (last_in c parse row IC) as (t & LT); [clear - P; induction P; constructor; auto|].
    rewrite LT in ST. pose proof (last_fits _ _ _ _ _ P LT) as PT. unfold prints in PT. rewrite (trip_whole F i rec c a lo hi SL) in PT. congruence.
Qed.

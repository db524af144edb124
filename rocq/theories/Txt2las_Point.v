(** txt2las: the point of a line. *)
From Coq Require Import ZArith List Bool String Ascii Lia Reals Lra.
Import ListNotations.
From Flocq Require Import Core.
From Verif Require Import Outcome Bytes Float64 Float64_Proofs Classif_Model Header_Model Point_Model Point_Spec Point_Api Point_Proofs Point_Hist Coord_Api Bounds_Proofs Coord_Proofs Coord_Header
  Cols_Spec Txt_Spec Txt_Proofs Txt2las_Model Txt2las_Spec Txt2las_Text Txt2las_Fields.
Local Open Scope list_scope.
Local Open Scope Z_scope.
Local Notation length := List.length (only parsing).

(** ** Coordinates *)
Section REAL.
Local Open Scope R_scope.
Lemma nearest_rnd x : nearest_double x = rnd64 x. Proof. reflexivity. Qed.
Lemma eta_scale s : scale_ok s -> eta64 <= Rabs (f64_R s) * / 1048576.
Proof.
  intros (_ & S1 & _). unfold eta64. apply Rle_trans with (bpow radix2 (-900) * / 1048576); [|apply Rmult_le_compat_r; lra].
  change (/ 1048576) with (bpow radix2 (-20)). rewrite <- bpow_plus. apply bpow_le. lia.
Qed.
Lemma double_close x : Rabs (nearest_double x - x) <= u64 * Rabs x + eta64.
Proof.
  rewrite nearest_rnd. destruct (rnd64_err x) as (e & k & He & Hk & ->). replace (x * (1 + e) + k - x) with (e * x + k) by ring.
  eapply Rle_trans; [apply Rabs_triang|]. rewrite Rabs_mult. apply Rplus_le_compat; [|exact Hk]. apply Rmult_le_compat_r; [apply Rabs_pos|exact He].
Qed.
Lemma div_bound a s B : 0 < Rabs s -> Rabs a <= B * Rabs s -> Rabs (a / s) <= B.
Proof.
  intros S0 H. unfold Rdiv. rewrite Rabs_mult, Rabs_inv. apply Rmult_le_reg_r with (Rabs s); [exact S0|]. rewrite Rmult_assoc, Rinv_l by lra. lra.
Qed.
Lemma in_range s o v x : scale_ok s -> f64_fin o = true -> Rabs (f64_R o) <= 1125899906842624 * Rabs (f64_R s) ->
  Rabs (x - f64_R o) <= 2147483646 * Rabs (f64_R s) -> f64_R v = nearest_double x ->
  Rabs (f64_R v - f64_R o) <= 2147483646.2 * Rabs (f64_R s) /\ Rabs (f64_R v - x) <= u64 * Rabs x + Rabs (f64_R s) * / 1048576.
Proof.
  intros Hs Fo HO HX EV. pose proof (double_close x) as DC. rewrite <- EV in DC. pose proof (eta_scale s Hs) as ES.
  assert (BX : Rabs x <= 1125902054326270 * Rabs (f64_R s)).
  { replace x with ((x - f64_R o) + f64_R o) by ring. eapply Rle_trans; [apply Rabs_triang|]. lra. }
  pose proof (Rabs_pos (f64_R s)) as S0.
  assert (BU : u64 * Rabs x <= 13 / 100 * Rabs (f64_R s)) by (unfold u64; lra).
  split; [|lra]. replace (f64_R v - f64_R o) with ((f64_R v - x) + (x - f64_R o)) by ring. eapply Rle_trans; [apply Rabs_triang|]. lra.
Qed.
Lemma quantise_text s o v x : scale_ok s -> f64_fin o = true -> Rabs (f64_R o) <= 1125899906842624 * Rabs (f64_R s) ->
  Rabs (x - f64_R o) <= 2147483646 * Rabs (f64_R s) -> f64_fin v = true -> f64_R v = nearest_double x ->
  exists n, quantise s o v = Ok n /\ in_signed 32 n /\ stored_coordinate s o x n.
Proof.
  intros Hs Fo HO HX Fv EV. destruct (in_range s o v x Hs Fo HO HX EV) as (R1 & R2).
  assert (S0 : 0 < Rabs (f64_R s)) by (destruct Hs as (_ & S1 & _); apply Rlt_le_trans with (2 := S1); apply bpow_gt_0).
  assert (Ns : f64_R s <> 0) by (intros E; rewrite E, Rabs_R0 in S0; lra).
  destruct (quantise_spec s o v Hs Fo Fv ltac:(lra)) as (q & Q & Eq & Bq).
  pose proof (nearest_err q Bq) as EN. set (n := nearest_of q) in *.
  set (t := (f64_R v - f64_R o) / f64_R s) in *.
  assert (Bt : Rabs t <= 2147483646.2) by (apply div_bound; [exact S0|lra]).
  set (e := (f64_R v - x) / f64_R s).
  set (u := (x - f64_R o) / f64_R s).
  assert (T : t = u + e) by (unfold t, u, e; field; exact Ns).
  assert (Bu : Rabs u <= 2147483646) by (apply div_bound; [exact S0|lra]).
  assert (IN : in_signed 32 n).
  { apply rabs in Bt. apply rabs in Eq. apply rabs in EN. unfold in_signed. change (2 ^ (32 - 1))%Z with 2147483648%Z.
    assert (H1 : (-2147483648 < n)%Z) by (apply lt_IZR; lra). assert (H2 : (n < 2147483648)%Z) by (apply lt_IZR; lra). lia. }
  exists n. split. { rewrite Q. destruct IN as (I1 & I2). unfold in_signedb. apply Z.leb_le in I1. apply Z.ltb_lt in I2. rewrite I1, I2. reflexivity. }
  split; [exact IN|]. split.
  - replace (IZR n * f64_R s + f64_R o - x) with (((IZR n - q) + (q - t)) * f64_R s + (f64_R v - x)) by (unfold t; field; exact Ns).
    eapply Rle_trans; [apply Rabs_triang|]. rewrite Rabs_mult.
    assert (A : Rabs (IZR n - q + (q - t)) <= / 2 + / 262144) by (eapply Rle_trans; [apply Rabs_triang|lra]).
    assert (M : Rabs (IZR n - q + (q - t)) * Rabs (f64_R s) <= (/ 2 + / 262144) * Rabs (f64_R s)) by (apply Rmult_le_compat_r; lra). lra.
  - intros k K1 K2. apply nearest_exact.
    + assert (A : Rabs (IZR k - u) <= / 16). { replace (IZR k - u) with ((IZR k * f64_R s + f64_R o - x) / f64_R s) by (unfold u; field; exact Ns). apply div_bound; [exact S0|lra]. }
      apply rabs in A. apply rabs in Bu. apply Rabs_le. lra.
    + assert (A : Rabs (IZR k - u) <= / 16). { replace (IZR k - u) with ((IZR k * f64_R s + f64_R o - x) / f64_R s) by (unfold u; field; exact Ns). apply div_bound; [exact S0|lra]. }
      assert (Be : Rabs e <= / 8 + / 1048576). { apply div_bound; [exact S0|lra]. }
      apply rabs in A. apply rabs in Be. apply rabs in Eq. apply Rabs_le. lra.
Qed.
End REAL.

(** ** A new point *)
Definition plain (h : header) : Prop := 0 <= get_format h <= 3 /\ format_bytes (get_format h) <= get_record_length h.
Lemma zeros_dec n : le_dec (repeat 0 n) = 0.
Proof. induction n as [|n IH]; [reflexivity|]. cbn [repeat le_dec]. lia. Qed.
Lemma zeros_ok n : bytes_ok (repeat 0 n).
Proof. apply Forall_forall. intros x H. apply repeat_spec in H. subst. unfold is_byte. lia. Qed.
Lemma new_wf h : plain h -> point_wf (point_new h).
Proof.
  intros (A & B). split; [exact A|]. cbn [point_new p_data]. split; [apply zeros_ok|]. rewrite repeat_length. change (format_bytes (get_format h) <= Z.of_nat (Z.to_nat (get_record_length h))). pose proof (format_bytes_ge (get_format h)). lia.
Qed.
Lemma new_zero h a : plain h -> attr_range (get_format h) a <> None -> api_get a (point_new h) = Ok 0.
Proof.
  intros Hp N. pose proof (new_wf h Hp) as W. destruct (attr_range (get_format h) a) as [[[s w] sg]|] eqn:E; [|contradiction].
  rewrite (api_get_spec _ _ s w sg W E). unfold rec_int. cbn [point_new p_data]. rewrite zeros_dec. f_equal. unfold bits_at. rewrite Z.div_0_l, Z.mod_0_l; [|apply Z.pow_nonzero|apply Z.pow_nonzero]; try lia.
  - unfold decode_bits. destruct sg; [|reflexivity]. unfold to_signed. rewrite Z.mod_0_l. { destruct (Z.ltb_spec 0 (2 ^ (w - 1))); [reflexivity|]. pose proof (Z.pow_nonneg 2 (w - 1) ltac:(lia)). destruct (Z.lt_ge_cases (w - 1) 0) as [L|G].
      - exfalso. destruct (attr_range_bounds _ _ _ _ _ (proj1 Hp) E) as (_ & X & _). lia.
      - pose proof (Z.pow_pos_nonneg 2 (w - 1) ltac:(lia) G). lia. }
    destruct (attr_range_bounds _ _ _ _ _ (proj1 Hp) E) as (_ & X & _). apply Z.pow_nonzero; lia.
  - destruct (attr_range_bounds _ _ _ _ _ (proj1 Hp) E) as (_ & X & _). lia.
  - destruct (attr_range_bounds _ _ _ _ _ (proj1 Hp) E) as (X & _). lia.
Qed.
Lemma start_inv h xyz t (P : ascii -> f64 -> Prop) : plain h -> (forall c, In c ["x"; "y"; "z"; "t"]%char -> P c (real_of (mkScan xyz t (point_new h) color_black) c)) ->
  inv h (Z.to_nat (get_record_length h)) (fun _ => 0) P (mkScan xyz t (point_new h) color_black).
Proof.
  intros Hp HP. split; [apply new_wf, Hp|]. split; [reflexivity|]. split; [cbn [s_pt point_new p_data]; apply repeat_length|]. split; [|exact HP].
  intros c a lo hi SL. split.
  - unfold letter_value. destruct (is_color a) eqn:IC.
    + unfold col_value. cbn [s_col color_black c_red c_green c_blue]. destruct c as [[] [] [] [] [] [] [] []]; reflexivity.
    + apply new_zero; [exact Hp|]. destruct (stored_present (get_format h) c a lo hi SL IC) as (? & ? & ? & X & _). congruence.
  - apply stored_cases in SL. cbn [table_letters In] in SL. repeat (destruct SL as [SL|SL]; [injection SL as _ _ <- <-; lia|]). contradiction.
Qed.

(** ** The finished point: [m] are the fields of the letters *)
Definition filled (h : header) (n : nat) (m : ascii -> Z) (p : point) : Prop :=
  point_wf p /\ p_hdr p = h /\ length (p_data p) = n /\
  forall c a lo hi, stored_letter c = Some (a, lo, hi) -> attr_range (get_format h) a <> None -> api_get a p = Ok (m c).
Lemma color_fill h n m P s : inv h n m P s -> exists p, quiet (s_pt s) (set_color (s_pt s) (s_col s)) = Ok p /\ filled h n m p.
Proof.
  intros (W & Hh & L & V & Rl). assert (PF : p_format (s_pt s) = get_format h) by (unfold p_format; now rewrite Hh).
  assert (VN : forall c a lo hi, stored_letter c = Some (a, lo, hi) -> is_color a = false -> api_get a (s_pt s) = Ok (m c)).
  { intros c a lo hi SL IC. destruct (V c a lo hi SL) as (X & _). unfold letter_value in X. now rewrite IC in X. }
  destruct (V "R"%char ARed 0 65535 eq_refl) as (VR & BR). destruct (V "G"%char AGreen 0 65535 eq_refl) as (VG & BG). destruct (V "B"%char ABlue 0 65535 eq_refl) as (VB & BB).
  unfold letter_value in VR, VG, VB. cbn [is_color col_value] in VR, VG, VB. injection VR as VR. injection VG as VG. injection VB as VB.
  destruct (attr_range (p_format (s_pt s)) ARed) as [r|] eqn:AR.
  - destruct (set_color_frame (s_pt s) (c_red (s_col s)) (c_green (s_col s)) (c_blue (s_col s)) W) as (p & E & W' & H' & L' & C1 & FR & _); try (unfold in_unsigned; change (2 ^ 16) with 65536; lia).
    { congruence. }
    exists p. replace (s_col s) with (mkColor (c_red (s_col s)) (c_green (s_col s)) (c_blue (s_col s))) by (destruct (s_col s); reflexivity). rewrite E. split; [reflexivity|].
    split; [exact W'|]. split; [now rewrite H'|]. split; [now rewrite L'|]. intros c a lo hi SL AP. destruct (is_color a) eqn:IC.
    + apply stored_cases in SL. cbn [table_letters In] in SL.
      repeat (destruct SL as [SL|SL]; [injection SL as <- <- <- <-; try discriminate IC; cbn [api_get]; rewrite C1; cbn [omap c_red c_green c_blue obind]; congruence|]). contradiction.
    + rewrite FR; [exact (VN c a lo hi SL IC)|exact IC|now rewrite PF].
  - destruct (color_absent (s_pt s) W AR) as (X & _). rewrite X. exists (s_pt s). split; [reflexivity|]. split; [exact W|]. split; [exact Hh|]. split; [exact L|].
    intros c a lo hi SL AP. destruct (is_color a) eqn:IC; [|exact (VN c a lo hi SL IC)]. exfalso.
    assert (N : attr_range (get_format h) a = None); [|contradiction]. rewrite PF in AR. cbn [attr_range] in AR.
    destruct a; try discriminate IC; cbn [attr_range]; destruct (get_format h =? 2), (get_format h =? 3); congruence.
Qed.

Section LINE.
Variables (lf flt : text -> option f64).
Hypothesis (RD : reads_doubles lf) (RF : reads_floats flt).
Lemma parse_ok h d p row extra xyz t (P : ascii -> f64 -> Prop) : plain h -> delimiter d -> Forall2 takes p row -> Forall cell_text extra -> row ++ extra <> [] ->
  (forall c, In c ["x"; "y"; "z"; "t"]%char -> P c (real_of (mkScan xyz t (point_new h) color_black) c)) ->
  exists s, parse lf flt p (line d (row ++ extra)) xyz t (point_new h) = Ok (true, s) /\
    filled h (Z.to_nat (get_record_length h)) (afterm (fun _ => 0) p row) (s_pt s) /\
    (forall c, In c ["x"; "y"; "z"; "t"]%char -> afterP P p row c (real_of s c)).
Proof.
  intros Hp D F X N HP.
  assert (CR : Forall cell_text (row ++ extra)).
  { apply Forall_app. split; [|exact X]. clear - F. induction F as [|a b l l' T F IH]; constructor; [exact (takes_cell a b T)|exact IH]. }
  unfold parse. rewrite (line_c d _ D CR).
  destruct (loop_ok lf flt h (Z.to_nat (get_record_length h)) RD RF d D p row extra _ _ P _ F X (at_line d _ CR N) (start_inv h xyz t P Hp HP)) as (s & -> & I).
  cbn [obind]. destruct (color_fill _ _ _ _ _ I) as (q & -> & FI). cbn [obind]. eexists. split; [reflexivity|]. cbn [with_pt s_pt]. split; [exact FI|].
  intros c Hc. destruct I as (_ & _ & _ & _ & R). specialize (R c Hc). destruct Hc as [<-|[<-|[<-|[<-|[]]]]]; exact R.
Qed.
End LINE.

(** ** Coordinates and time *)
Lemma place_one h n m p ax v x (done : list axis) (z : axis -> Z) : filled h n m p -> scale_ok (scale_of ax h) -> f64_fin (offset_of ax h) = true ->
  (Rabs (f64_R (offset_of ax h)) <= 1125899906842624 * Rabs (f64_R (scale_of ax h)))%R ->
  (Rabs (x - f64_R (offset_of ax h)) <= 2147483646 * Rabs (f64_R (scale_of ax h)))%R -> f64_fin v = true -> f64_R v = nearest_double x ->
  ~ In ax done -> (forall a, In a done -> api_get (raw_attr a) p = Ok (z a)) ->
  exists q k, quiet p (set_coord ax p v) = Ok q /\ filled h n m q /\ api_get (raw_attr ax) q = Ok k /\ stored_coordinate (scale_of ax h) (offset_of ax h) x k /\
    (forall a, In a done -> api_get (raw_attr a) q = Ok (z a)).
Proof.
  intros (W & Hh & L & V) Hs Fo HO HX Fv EV ND DN. destruct (quantise_text _ _ v x Hs Fo HO HX Fv EV) as (k & Q & IN & SC).
  rewrite set_coord_raw, Hh, Q. cbn [obind]. destruct (raw_range (p_format p) ax) as (s & AR & IC).
  destruct (set_get_frame p (raw_attr ax) k s 32 true W IC AR IN) as (q & E & W' & H' & L' & G & FR & _).
  exists q, k. rewrite E. split; [reflexivity|]. split.
  - split; [exact W'|]. split; [now rewrite H'|]. split; [now rewrite L'|]. intros c a lo hi SL AP. rewrite FR; [exact (V c a lo hi SL AP)| |unfold p_format; now rewrite Hh].
    apply stored_cases in SL. cbn [table_letters In] in SL. repeat (destruct SL as [SL|SL]; [injection SL as <- <- <- <-; destruct ax; reflexivity|]). contradiction.
  - split; [exact G|]. split; [exact SC|]. intros a Ha. rewrite <- (DN a Ha). apply FR; [destruct ax, a; try reflexivity; contradiction|]. destruct a; discriminate.
Qed.
Lemma time_last h n m p t : filled h n m p ->
  exists q, quiet p (set_time p t) = Ok q /\ filled h n m q /\ (forall ax, api_get (raw_attr ax) q = api_get (raw_attr ax) p) /\
    (attr_range (get_format h) ATime <> None -> api_get ATime q = Ok (f64_bits t)).
Proof.
  intros (W & Hh & L & V). assert (PF : p_format p = get_format h) by (unfold p_format; now rewrite Hh).
  destruct (attr_range (p_format p) ATime) as [[[s w] sg]|] eqn:AR.
  - assert (WF : w = 64 /\ sg = false) by (cbn [attr_range] in AR; destruct (_ || _); [injection AR as _ <- <-; auto|discriminate]). destruct WF as (-> & ->).
    destruct (set_get_frame p ATime (f64_bits t) s 64 false W eq_refl AR) as (q & E & W' & H' & L' & G & FR & _). { apply f64_bits_range. }
    cbn [api_set] in E. rewrite f64_of_bits_bits in E. exists q. rewrite E. split; [reflexivity|]. split.
    + split; [exact W'|]. split; [now rewrite H'|]. split; [now rewrite L'|]. intros c a lo hi SL AP. rewrite FR; [exact (V c a lo hi SL AP)| |now rewrite PF].
      apply stored_cases in SL. cbn [table_letters In] in SL. repeat (destruct SL as [SL|SL]; [injection SL as <- <- <- <-; reflexivity|]). contradiction.
    + split; [intros ax; apply FR; [destruct ax; reflexivity|destruct ax; discriminate]|]. intros _. exact G.
  - destruct (time_absent p W AR) as (X & _). rewrite X. exists p. split; [reflexivity|]. split; [exact (conj W (conj Hh (conj L V)))|]. split; [reflexivity|].
    intros Y. rewrite <- PF in Y. contradiction.
Qed.

(** World coordinates through the Point API and Point::SetHeader. *)
From Coq Require Import ZArith Reals List Bool Lia Lra String.
From Flocq Require Import Core.
Import ListNotations.
From Verif Require Import Outcome Bytes Float64 Float64_Proofs Classif_Model Schema_Model Header_Model Point_Model Point_Spec Point_Api
  Point_Proofs Point_Hist Filter_Proofs Bounds_Proofs Coord_Api Coord_Proofs Writer_Append.
Local Open Scope Z_scope.
Local Notation length := List.length (only parsing).

Lemma raw_range fmt ax : exists s, attr_range fmt (raw_attr ax) = Some (s, 32, true) /\ is_color (raw_attr ax) = false.
Proof. destruct ax; eexists; split; reflexivity. Qed.

Lemma get_coord_raw ax p : get_coord ax p =
  let! v := api_get (raw_attr ax) p in Ok (descale (scale_of ax (p_hdr p)) (offset_of ax (p_hdr p)) v).
Proof. destruct ax; reflexivity. Qed.
Lemma set_coord_raw ax p v : set_coord ax p v =
  let! q := quantise (scale_of ax (p_hdr p)) (offset_of ax (p_hdr p)) v in api_set (raw_attr ax) q p.
Proof. destruct ax; reflexivity. Qed.

Lemma raw_get p ax : point_wf p -> exists v, api_get (raw_attr ax) p = Ok v /\ in_signed 32 v.
Proof.
  intros W. destruct (raw_range (p_format p) ax) as (s & R & _).
  exists (to_signed 32 (bits_at (rec_int p) s 32)). rewrite (api_get_spec p _ _ _ _ W R). split; [reflexivity|].
  apply to_signed_range; lia.
Qed.

Lemma put_bits_same R s w v : 0 <= s -> 0 <= w -> v mod 2 ^ w = bits_at R s w -> put_bits R s w v = R.
Proof. intros Hs Hw H. unfold put_bits. rewrite H. lia. Qed.

(** Writing the raw value an axis already has changes nothing. *)
Lemma set_raw_same p ax v : point_wf p -> api_get (raw_attr ax) p = Ok v -> api_set (raw_attr ax) v p = Ok p.
Proof.
  intros W G. destruct (raw_range (p_format p) ax) as (s & R & C).
  pose proof W as (Hf & Hd & Hl). destruct (attr_range_bounds _ _ _ _ _ Hf R) as (B1 & B2 & B3).
  destruct (api_set_spec p (raw_attr ax) v s 32 true W C R) as (p' & E & H1 & H2 & H3 & H4).
  { destruct ax; discriminate. }
  rewrite E. f_equal. rewrite (api_get_spec p _ _ _ _ W R) in G. apply Ok_inj in G.
  assert (D : p_data p' = p_data p).
  { apply le_dec_inj; auto. fold (rec_int p) (rec_int p'). rewrite H4. apply put_bits_same; try lia.
    rewrite <- G. cbn [decode_bits]. rewrite to_signed_mod by lia. apply Z.mod_small. apply bits_at_range. lia. }
  destruct p', p; cbn in *. congruence.
Qed.

Lemma coord_round_trip p ax : point_wf p ->
  scale_ok (scale_of ax (p_hdr p)) -> f64_fin (offset_of ax (p_hdr p)) = true ->
  (Rabs (f64_R (offset_of ax (p_hdr p))) <= 1125899906842624 * Rabs (f64_R (scale_of ax (p_hdr p))))%R ->
  exists x, get_coord ax p = Ok x /\ set_coord ax p x = Ok p.
Proof.
  intros W Hs Fo HO. destruct (raw_get p ax W) as (v & G & V). rewrite get_coord_raw, G. cbn [obind].
  eexists. split; [reflexivity|]. rewrite set_coord_raw, raw_round_trip by assumption. cbn [obind]. now apply set_raw_same.
Qed.

(** Everything a coordinate write does. *)
Lemma set_coord_spec p ax v : point_wf p ->
  scale_ok (scale_of ax (p_hdr p)) -> offset_ok (offset_of ax (p_hdr p)) ->
  storable (scale_of ax (p_hdr p)) (offset_of ax (p_hdr p)) v ->
  exists p' x, set_coord ax p v = Ok p' /\ point_wf p' /\ p_hdr p' = p_hdr p /\ length (p_data p') = length (p_data p) /\
    get_coord ax p' = Ok x /\ f64_fin x = true /\ (Rabs (f64_R x - f64_R v) <= quantum (scale_of ax (p_hdr p)) (offset_of ax (p_hdr p)))%R /\
    (forall b, b <> raw_attr ax -> attr_range (p_format p) b <> None -> api_get b p' = api_get b p) /\
    (forall i, (Z.to_nat (format_bytes (p_format p)) <= i)%nat -> nth_error (p_data p') i = nth_error (p_data p) i).
Proof.
  intros W Hs Ho (Fv & Bv). destruct (quantise_round_trip _ _ v Hs Ho Fv Bv) as (n & Q & Rn & Fx & Ex).
  destruct (raw_range (p_format p) ax) as (s & R & C).
  destruct (set_get_frame p (raw_attr ax) n s 32 true W C R) as (p' & E & W' & H' & L' & G' & F' & B').
  { cbn [value_fits]. unfold in_signed. change (2 ^ (32 - 1)) with 2147483648. lia. }
  exists p'. eexists. rewrite set_coord_raw, Q. cbn [obind]. split; [exact E|]. split; [exact W'|]. split; [exact H'|]. split; [exact L'|].
  rewrite get_coord_raw, G', H'. cbn [obind]. split; [reflexivity|]. split; [exact Fx|]. split; [exact Ex|]. split; [|exact B'].
  intros b Nb. apply F'. destruct ax, b; cbn in *; congruence.
Qed.

(** ** Point::SetHeader *)
Definition view_of (p : point) (a : attr) : Z := match api_get a p with Ok v => v | _ => 0 end.

Lemma wf_api_get p a : point_wf p -> attr_range (p_format p) a <> None ->
  exists s w sg, attr_range (p_format p) a = Some (s, w, sg) /\ api_get a p = Ok (view_of p a) /\ value_fits sg w (view_of p a).
Proof.
  intros W H. destruct (attr_range (p_format p) a) as [[[s w] sg]|] eqn:E; [|congruence].
  pose proof W as (Hf & _). destruct (attr_range_bounds _ _ _ _ _ Hf E) as (B1 & B2 & B3).
  exists s, w, sg. split; [reflexivity|]. unfold view_of. rewrite (api_get_spec p a s w sg W E). split; [reflexivity|].
  destruct sg; cbn [decode_bits value_fits]; [apply to_signed_range; lia|unfold in_unsigned; apply bits_at_range; lia].
Qed.

Lemma view_agrees p : point_wf p -> agrees p (view_of p).
Proof.
  intros W a Ha. destruct (wf_api_get p a W Ha) as (s & w & sg & R & E & _). rewrite E.
  destruct (attr_eq_dec a AScanFlags) as [->|N]; [|destruct a; auto; congruence].
  assert (K : forall b, In b [AScanFlags; AReturnNumber; ANumberOfReturns; AScanDirection; AFlightLineEdge] -> api_get b p = Ok (view_of p b)).
  { intros b Hb. destruct (wf_api_get p b W (flag_attr_present _ b Hb)) as (? & ? & ? & _ & X & _). exact X. }
  rewrite <- E. apply (agrees_flags p (view_of p) W); [apply (K AReturnNumber)|apply (K ANumberOfReturns)|apply (K AScanDirection)|apply (K AFlightLineEdge)]; cbn; auto 6.
Qed.

Lemma zsum_acc l : forall a, fold_left Z.add l a = a + fold_left Z.add l 0.
Proof. induction l as [|x l IH]; intros a; cbn [fold_left]; [lia|]. rewrite IH, (IH (0 + x)). lia. Qed.
Lemma zsum_zero l : bytes_ok l -> (zsum l = 0 <-> l = repeat 0 (length l)).
Proof.
  unfold zsum. induction l as [|x l IH]; intros B; [cbn; tauto|]. inversion B as [|? ? Bx Bl]; subst. unfold is_byte in Bx.
  cbn [fold_left length repeat]. rewrite zsum_acc.
  assert (P : 0 <= fold_left Z.add l 0).
  { clear - Bl. induction Bl as [|y l By Bl IH]; cbn [fold_left]; [lia|]. rewrite zsum_acc. unfold is_byte in By. lia. }
  split.
  - intros E. assert (x = 0) by lia. assert (E2 : fold_left Z.add l 0 = 0) by lia. f_equal; [assumption|]. now apply IH.
  - intros E. injection E as Ex El. apply IH in El; [lia|exact Bl].
Qed.

Lemma layout_point h d : layout_ok h -> bytes_ok d -> Z.of_nat (length d) = get_record_length h -> point_wf (mkPoint d h).
Proof. intros (L1 & L2 & _) B E. unfold point_wf, p_format. cbn [p_hdr p_data]. rewrite E. auto. Qed.
Lemma record_length_range h : 0 <= get_record_length h < 2 ^ 16.
Proof. unfold get_record_length. apply Z.mod_pos_bound. reflexivity. Qed.

Lemma fits_std p a s w sg : point_wf p -> attr_range 0 a = Some (s, w, sg) -> is_color a = false ->
  exists v, api_get a p = Ok v /\ v = view_of p a /\ (forall fmt, pop_ok fmt (PSet a v)).
Proof.
  intros W R C. assert (Hstd : forall fmt, attr_range fmt a = Some (s, w, sg)) by (intros fmt; destruct a; cbn in *; congruence).
  destruct (wf_api_get p a W) as (s' & w' & sg' & R' & E & F); [rewrite Hstd; discriminate|].
  rewrite Hstd in R'. injection R' as <- <- <-. exists (view_of p a). split; [exact E|]. split; [reflexivity|]. intros fmt. split; [exact C|].
  exists s, w, sg. split; [apply Hstd|exact F].
Qed.

Lemma time_value p : point_wf p -> exists t, get_time p = Ok t /\ kept p ATime = Ok (f64_bits t).
Proof.
  intros W. unfold kept. destruct (attr_range (p_format p) ATime) as [[[s w] sg]|] eqn:R.
  - destruct (wf_api_get p ATime W ltac:(congruence)) as (? & ? & ? & _ & E & _). cbn [api_get] in *. unfold omap in *.
    destruct (get_time p) as [t| |]; cbn [obind] in *; try discriminate. exists t. auto.
  - destruct (time_absent p W R) as (_ & E). exists f64_zero. split; [exact E|]. f_equal.
Qed.
Lemma color_value p : point_wf p -> exists c, get_color p = Ok c /\ kept p ARed = Ok (c_red c) /\
  kept p AGreen = Ok (c_green c) /\ kept p ABlue = Ok (c_blue c) /\
  in_unsigned 16 (c_red c) /\ in_unsigned 16 (c_green c) /\ in_unsigned 16 (c_blue c).
Proof.
  intros W. pose proof W as (Hf & _). destruct (get_color_wf p W) as (c & E). exists c. split; [exact E|]. unfold kept. cbn [api_get]. rewrite E. cbn [omap].
  destruct (attr_range (p_format p) ARed) as [r|] eqn:R.
  - destruct (color_ranges _ Hf ltac:(congruence)) as (rs & R1 & R2 & R3 & _). rewrite R2, R3.
    pose proof (wf_api_get p ARed W ltac:(congruence)) as (? & ? & ? & X1 & Y1 & F1).
    pose proof (wf_api_get p AGreen W ltac:(congruence)) as (? & ? & ? & X2 & Y2 & F2).
    pose proof (wf_api_get p ABlue W ltac:(congruence)) as (? & ? & ? & X3 & Y3 & F3).
    rewrite R1 in X1. rewrite R2 in X2. rewrite R3 in X3. injection X1 as <- <- <-. injection X2 as <- <- <-. injection X3 as <- <- <-.
    cbn [api_get] in *. rewrite E in *. cbn [omap obind] in *. apply Ok_inj in Y1, Y2, Y3. cbn [value_fits] in *. rewrite <- Y1 in F1. rewrite <- Y2 in F2. rewrite <- Y3 in F3.
    auto 8.
  - destruct (color_absent p W R) as (_ & E'). rewrite E in E'. apply Ok_inj in E'. subst c.
    assert (R2 : attr_range (p_format p) AGreen = None /\ attr_range (p_format p) ABlue = None).
    { destruct (format_cases _ Hf) as [F|[F|[F|F]]]; rewrite F in *; cbn in *; try discriminate; auto. }
    destruct R2 as (-> & ->). unfold in_unsigned. cbn. repeat split; lia.
Qed.

(** The field by field copy of point.cpp:236-260. *)
Definition copy_into (p : point) (h : header) (q : point) : outcome point :=
  let! x := get_x p in let! q := set_x q x in
  let! y := get_y p in let! q := set_y q y in
  let! z := get_z p in let! q := set_z q z in
  let! v := get_intensity p in let! q := set_intensity q v in
  let! v := get_flags p in let! q := set_flags q v in
  let! v := get_classification p in let! q := set_classification q v in
  let! v := get_scan_angle p in let! q := set_scan_angle q v in
  let! v := get_user_data p in let! q := set_user_data q v in
  let! v := get_point_source_id p in let! q := set_point_source_id q v in
  let! q := if has_dim h "Time" then let! t := get_time p in set_time q t else Ok q in
  if has_dim h "Red" then let! c := get_color p in set_color q c else Ok q.

Lemma target_offset h ax : target_ok h -> offset_ok (offset_of ax h).
Proof.
  intros H. destruct (H ax) as (Hs & Fo & HO). split; [exact Fo|]. destruct Hs as (_ & S1 & S2).
  assert (S0 : (0 < Rabs (f64_R (scale_of ax h)))%R) by (apply Rlt_le_trans with (2 := S1); apply bpow_gt_0).
  apply Rle_trans with (1 := HO). change 1125899906842624%R with (bpow radix2 50). apply (pow_mul 50 _ 900); [lia|lra|exact S2|lia].
Qed.

Lemma coord_value p ax : point_wf p -> exists x, get_coord ax p = Ok x.
Proof. intros W. destruct (raw_get p ax W) as (v & G & V). rewrite get_coord_raw, G. eexists. reflexivity. Qed.

(** One coordinate of the copy. *)
Lemma coord_pop p h q ax m : point_wf p -> point_wf q -> p_hdr q = h -> target_ok h -> coords_fit p h -> agrees q m ->
  exists x n q', get_coord ax p = Ok x /\ set_coord ax q x = Ok q' /\ point_wf q' /\ p_hdr q' = h /\ length (p_data q') = length (p_data q) /\ agrees q' (aop m (PSet (raw_attr ax) n)) /\ (Rabs (f64_R (descale (scale_of ax h) (offset_of ax h) n) - f64_R x) <= quantum (scale_of ax h) (offset_of ax h))%R.
Proof.
  intros W Wq Hq T C A. destruct (coord_value p ax W) as (x & X). pose proof (C ax x X) as (Fx & Bx).
  destruct (T ax) as (Hs & _). destruct (quantise_round_trip _ _ x Hs (target_offset h ax T) Fx Bx) as (n & Q & Rn & _ & Ex).
  destruct (raw_range (p_format q) ax) as (s & R & Cc).
  destruct (pop_refines q (PSet (raw_attr ax) n) m Wq A) as (q' & E & W' & H' & L' & A' & _).
  { split; [exact Cc|]. exists s, 32, true. split; [exact R|]. cbn [value_fits]. unfold in_signed. change (2 ^ (32 - 1)) with 2147483648. lia. }
  exists x, n, q'. split; [exact X|]. rewrite set_coord_raw, Hq, Q. cbn [obind pop_run] in *. split; [exact E|]. split; [exact W'|].
  split; [congruence|]. split; [exact L'|]. split; [exact A'|exact Ex].
Qed.

Ltac copy_step W Wq Aq a v :=
  let F := fresh "F" in let G := fresh "G" in let V := fresh "V" in let E := fresh "E" in let q' := fresh "q" in
  let W' := fresh "W" in let H' := fresh "H" in let L' := fresh "L" in let A' := fresh "A" in
  destruct (fits_std _ a _ _ _ W eq_refl eq_refl) as (v & G & V & F);
  destruct (pop_refines _ (PSet a v) _ Wq Aq (F _)) as (q' & E & W' & H' & L' & A' & _);
  cbn [api_get pop_run api_set] in G, E; rewrite G; cbn [obind]; rewrite E; cbn [obind].

Lemma copy_into_spec p h q0 : point_wf p -> layout_ok h -> target_ok h -> coords_fit p h ->
  point_wf q0 -> p_hdr q0 = h -> agrees q0 (fun _ => 0) ->
  exists q, copy_into p h q0 = Ok q /\ point_wf q /\ p_hdr q = h /\ length (p_data q) = length (p_data q0) /\
    (forall ax x, get_coord ax p = Ok x -> exists x', get_coord ax q = Ok x' /\
       (Rabs (f64_R x' - f64_R x) <= quantum (scale_of ax h) (offset_of ax h))%R) /\
    (forall a, is_raw a = false -> attr_range (get_format h) a <> None -> api_get a q = kept p a).
Proof.
  intros W L T C Wq Hq A0. destruct L as (Lf & _ & Lt & Lc). unfold copy_into.
  destruct (coord_pop p h q0 AxX _ W Wq Hq T C A0) as (x & nx & q1 & X & E1 & W1 & H1 & L1 & A1 & Bx).
  cbn [get_coord set_coord] in X, E1. rewrite X. cbn [obind]. rewrite E1. cbn [obind].
  destruct (coord_pop p h q1 AxY _ W W1 H1 T C A1) as (y & ny & q2 & Y & E2 & W2 & H2 & L2 & A2 & By).
  cbn [get_coord set_coord] in Y, E2. rewrite Y. cbn [obind]. rewrite E2. cbn [obind].
  destruct (coord_pop p h q2 AxZ _ W W2 H2 T C A2) as (z & nz & q3 & Z0 & E3 & W3 & H3 & L3 & A3 & Bz).
  cbn [get_coord set_coord] in Z0, E3. rewrite Z0. cbn [obind]. rewrite E3. cbn [obind].
  copy_step W W3 A3 AIntensity v4. copy_step W W0 A AScanFlags v5. copy_step W W4 A4 AClassification v6.
  copy_step W W5 A5 AScanAngleRank v7. copy_step W W6 A6 AUserData v8. copy_step W W7 A7 APointSourceId v9.
  assert (Hh : p_hdr q8 = h) by congruence. assert (Hl : length (p_data q8) = length (p_data q0)) by congruence.
  match type of A8 with agrees _ ?mm => set (m := mm) in * end.
  assert (Fq : forall r, p_hdr r = h -> p_format r = get_format h) by (intros r Er; unfold p_format; now rewrite Er).
  destruct (time_value p W) as (t & Tt & Kt). destruct (color_value p W) as (c & Tc & Kr & Kg & Kb & Ir & Ig & Ib).
  (* time *)
  assert (ST : exists r m2, (if has_dim h "Time" then let! t := get_time p in set_time q8 t else Ok q8) = Ok r /\ point_wf r /\ p_hdr r = h /\
      length (p_data r) = length (p_data q0) /\ agrees r m2 /\ (forall a, a <> ATime -> m2 a = m a) /\
      (attr_range (get_format h) ATime <> None -> m2 ATime = f64_bits t)).
  { destruct (has_dim h "Time") eqn:Ed.
    - pose proof (proj1 Lt eq_refl) as Rt. destruct (attr_range (get_format h) ATime) as [[[s w] sg]|] eqn:Er; [|congruence].
      assert (Ew : (s, w, sg) = (160, 64, false)).
      { destruct (format_cases _ Lf) as [Ef|[Ef|[Ef|Ef]]]; rewrite Ef in Er; cbn in Er; congruence. }
      injection Ew as -> -> ->.
      destruct (pop_refines q8 (PSet ATime (f64_bits t)) m W8 A8) as (r & Er1 & Wr & Hr & Lr & Ar & _).
      { rewrite (Fq q8 Hh). split; [reflexivity|]. exists 160, 64, false. split; [exact Er|]. cbn [value_fits]. apply f64_bits_range. }
      cbn [pop_run api_set] in Er1. rewrite f64_of_bits_bits in Er1.
      exists r. eexists. rewrite Tt. cbn [obind]. split; [exact Er1|]. split; [exact Wr|]. split; [congruence|]. split; [congruence|]. split; [exact Ar|].
      cbn [aop aset]. unfold upd. split; [intros a Na; destruct (attr_eq_dec a ATime); [contradiction|reflexivity]|intros _; reflexivity].
    - exists q8, m. split; [reflexivity|]. split; [exact W8|]. split; [exact Hh|]. split; [exact Hl|]. split; [exact A8|].
      split; [reflexivity|]. intros Rt. apply Lt in Rt. discriminate. }
  destruct ST as (r & m2 & -> & Wr & Hr & Lr & Ar & Mo & Mt). cbn [obind].
  (* colour *)
  assert (SC : exists g m3, (if has_dim h "Red" then let! c := get_color p in set_color r c else Ok r) = Ok g /\ point_wf g /\ p_hdr g = h /\
      length (p_data g) = length (p_data q0) /\ agrees g m3 /\ (forall a, is_color a = false -> m3 a = m2 a) /\
      (attr_range (get_format h) ARed <> None -> m3 ARed = c_red c /\ m3 AGreen = c_green c /\ m3 ABlue = c_blue c)).
  { destruct (has_dim h "Red") eqn:Ed.
    - pose proof (proj1 Lc eq_refl) as Rt.
      destruct (pop_refines r (PColor (c_red c) (c_green c) (c_blue c)) m2 Wr Ar) as (g & Eg & Wg & Hg & Lg & Ag & _).
      { rewrite (Fq r Hr). split; [exact Rt|]. auto. }
      cbn [pop_run] in Eg. exists g, (aop m2 (PColor (c_red c) (c_green c) (c_blue c))). rewrite Tc. cbn [obind]. destruct c as [cr cg cb]. cbn [c_red c_green c_blue] in *.
      split; [exact Eg|]. split; [exact Wg|]. split; [congruence|]. split; [congruence|]. split; [exact Ag|].
      cbn [aop aset]. unfold upd. split; [intros a Na; destruct a; cbn in Na |- *; congruence|intros _; cbn; auto].
    - exists r, m2. split; [reflexivity|]. split; [exact Wr|]. split; [exact Hr|]. split; [exact Lr|]. split; [exact Ar|].
      split; [reflexivity|]. intros Rt. apply Lc in Rt. discriminate. }
  destruct SC as (g & m3 & -> & Wg & Hg & Lg & Ag & Co & Cc).
  exists g. split; [reflexivity|]. split; [exact Wg|]. split; [exact Hg|]. split; [exact Lg|].
  pose proof (Fq g Hg) as Fg.
  assert (M3 : forall a, is_color a = false -> a <> ATime -> m3 a = m a) by (intros a C1 C2; rewrite Co, Mo; auto).
  split.
  - intros ax x0 Gx. destruct (raw_range (p_format g) ax) as (s & R & _).
    rewrite get_coord_raw, (Ag (raw_attr ax)) by congruence. cbn [obind]. eexists. split; [reflexivity|]. rewrite Hg.
    destruct ax; cbn [raw_attr aview get_coord] in *; rewrite M3 by (reflexivity || discriminate).
    + replace (m ARawX) with nx by reflexivity. rewrite X in Gx. apply Ok_inj in Gx. subst x0. exact Bx.
    + replace (m ARawY) with ny by reflexivity. rewrite Y in Gx. apply Ok_inj in Gx. subst x0. exact By.
    + replace (m ARawZ) with nz by reflexivity. rewrite Z0 in Gx. apply Ok_inj in Gx. subst x0. exact Bz.
  - intros a Ra Pa. rewrite Ag by congruence.
    destruct (attr_eq_dec a ATime) as [->|Nt]; [rewrite Kt; cbn [aview]; rewrite Co, Mt by auto; reflexivity|].
    destruct (is_color a) eqn:Ca.
    { assert (Rr : attr_range (get_format h) ARed <> None).
      { destruct (format_cases _ Lf) as [Ef|[Ef|[Ef|Ef]]]; rewrite Ef in Pa |- *; destruct a; cbn in *; try discriminate; congruence. }
      destruct (Cc Rr) as (C1 & C2 & C3). destruct a; cbn in Ca; try discriminate; cbn [aview]; [rewrite Kr|rewrite Kg|rewrite Kb]; congruence. }
    assert (Rs : attr_range (p_format p) a <> None) by (destruct a; cbn in *; congruence).
    pose proof (view_agrees p W a Rs) as Va.
    unfold kept. destruct (attr_range (p_format p) a) as [rg|] eqn:Eg; [|congruence]. rewrite Va. f_equal.
    pose proof (view_agrees p W AScanFlags ltac:(discriminate)) as Vf. cbn [api_get] in Vf.
    destruct (flags_compose p W) as (rn & nr & di & ed & R1 & R2 & R3 & R4 & P1 & P2 & P3 & P4 & P5).
    assert (Ef : view_of p AReturnNumber = rn /\ view_of p ANumberOfReturns = nr /\ view_of p AScanDirection = di /\ view_of p AFlightLineEdge = ed).
    { unfold view_of. cbn [api_get]. rewrite P1, P2, P3, P4. auto. }
    destruct Ef as (X1 & X2 & X3 & X4).
    destruct (flags_parts rn nr di ed R1 R2 R3 R4) as (Q1 & Q2 & Q3 & Q4).
    assert (Ev : v5 = flag_byte rn nr di ed) by congruence. cbv zeta in Q1, Q2, Q3, Q4. rewrite <- Ev in Q1, Q2, Q3, Q4.
    destruct a; cbn in Ra, Ca; try discriminate; try congruence; cbn [aview]; rewrite ?M3 by (reflexivity || discriminate).
    + exact V.
    + rewrite X1, X2, X3, X4. change (flag_byte (v5 mod 8) (v5 / 8 mod 8) (v5 / 64 mod 2) (v5 / 128) = flag_byte rn nr di ed). congruence.
    + rewrite X1. symmetry. exact Q1.
    + rewrite X2. symmetry. exact Q2.
    + rewrite X3. symmetry. exact Q3.
    + rewrite X4. symmetry. exact Q4.
    + exact V1.
    + exact V2.
    + exact V3.
    + exact V4.
Qed.

(** the three cases of SetHeader *)
Lemma set_header_eq p h : set_header p h =
  if zsum (p_data p) =? 0 then Ok (point_new h)
  else
    let! p1 := if negb (get_record_length h =? Z.of_nat (length (p_data p))) then copy_into p h (point_new h) else Ok p in
    if scaling_differs h (p_hdr p)
    then
      let! x := get_x p1 in let! y := get_y p1 in let! z := get_z p1 in
      let! q := set_x (mkPoint (p_data p1) h) x in let! q := set_y q y in set_z q z
    else Ok (mkPoint (p_data p1) h).
Proof. reflexivity. Qed.

Definition outcome_of_move (p : point) (h : header) (p' : point) : Prop :=
  p_hdr p' = h /\ point_wf p' /\ Z.of_nat (length (p_data p')) = get_record_length h.

Lemma fresh_wf h : layout_ok h -> point_wf (point_new h) /\ agrees (point_new h) (fun _ => 0).
Proof. intros (L1 & L2 & _). now apply fresh_point_agrees. Qed.

(** Rescaling under the header the record already belongs to. *)
Lemma rescale_id q h : point_wf q -> p_hdr q = h -> target_ok h ->
  (let! x := get_x q in let! y := get_y q in let! z := get_z q in
   let! q1 := set_x (mkPoint (p_data q) h) x in let! q2 := set_y q1 y in set_z q2 z) = Ok q.
Proof.
  intros W H T. assert (E : mkPoint (p_data q) h = q) by (destruct q; cbn in *; congruence). rewrite E. subst h.
  destruct (T AxX) as (S1 & F1 & B1). destruct (T AxY) as (S2 & F2 & B2). destruct (T AxZ) as (S3 & F3 & B3).
  destruct (coord_round_trip q AxX W S1 F1 B1) as (x & X1 & X2). destruct (coord_round_trip q AxY W S2 F2 B2) as (y & Y1 & Y2).
  destruct (coord_round_trip q AxZ W S3 F3 B3) as (z & Z1 & Z2). cbn [get_coord set_coord] in *.
  rewrite X1, Y1, Z1. cbn [obind]. rewrite X2. cbn [obind]. rewrite Y2. cbn [obind]. exact Z2.
Qed.

Lemma move_other_length p h : point_wf p -> layout_ok h -> target_ok h -> coords_fit p h ->
  p_data p <> repeat 0 (length (p_data p)) -> get_record_length h <> Z.of_nat (length (p_data p)) ->
  exists p', set_header p h = Ok p' /\ outcome_of_move p h p' /\
    (forall ax x, get_coord ax p = Ok x -> exists x', get_coord ax p' = Ok x' /\
       (Rabs (f64_R x' - f64_R x) <= quantum (scale_of ax h) (offset_of ax h))%R) /\
    (forall a, is_raw a = false -> attr_range (get_format h) a <> None -> api_get a p' = kept p a).
Proof.
  intros W L T C NZ NL. destruct (fresh_wf h L) as (Wn & An).
  destruct (copy_into_spec p h (point_new h) W L T C Wn eq_refl An) as (q & E & Wq & Hq & Lq & Cq & Aq).
  exists q. split.
  - rewrite set_header_eq. rewrite (proj2 (Z.eqb_neq _ _)); [|intros X; apply NZ; apply zsum_zero; [apply W|exact X]].
    rewrite (proj2 (Z.eqb_neq _ _)) by exact NL. cbn [negb]. rewrite E. cbn [obind].
    destruct (scaling_differs h (p_hdr p)); [now apply rescale_id|]. f_equal. destruct q; cbn in *; congruence.
  - split; [|split; assumption]. split; [exact Hq|]. split; [exact Wq|]. rewrite Lq. unfold point_new. cbn [p_data]. rewrite repeat_length.
    pose proof (record_length_range h). lia.
Qed.

(** Three coordinate writes on one record. *)
Lemma set_three q h x y z : point_wf q -> p_hdr q = h -> target_ok h ->
  storable (scale_of AxX h) (offset_of AxX h) x -> storable (scale_of AxY h) (offset_of AxY h) y -> storable (scale_of AxZ h) (offset_of AxZ h) z ->
  exists r, (let! a := set_x q x in let! b := set_y a y in set_z b z) = Ok r /\ point_wf r /\ p_hdr r = h /\ length (p_data r) = length (p_data q) /\
    (forall ax, exists x', get_coord ax r = Ok x' /\
       (Rabs (f64_R x' - f64_R (axis_of (x, y, z) ax)) <= quantum (scale_of ax h) (offset_of ax h))%R) /\
    (forall a, is_raw a = false -> attr_range (p_format q) a <> None -> api_get a r = api_get a q) /\
    (forall i, (Z.to_nat (format_bytes (p_format q)) <= i)%nat -> nth_error (p_data r) i = nth_error (p_data q) i).
Proof.
  intros W Hq T Fx Fy Fz.
  pose proof (T AxX) as (S1 & _). pose proof (T AxY) as (S2 & _). pose proof (T AxZ) as (S3 & _).
  pose proof (target_offset h AxX T) as O1. pose proof (target_offset h AxY T) as O2. pose proof (target_offset h AxZ T) as O3.
  rewrite <- Hq in S1, O1, Fx. destruct (set_coord_spec q AxX x W S1 O1 Fx) as (a & x' & E1 & W1 & H1 & L1 & G1 & _ & B1 & A1 & C1).
  rewrite Hq in H1. rewrite <- H1 in S2, O2, Fy. destruct (set_coord_spec a AxY y W1 S2 O2 Fy) as (b & y' & E2 & W2 & H2 & L2 & G2 & _ & B2 & A2 & C2).
  rewrite H1 in H2. rewrite <- H2 in S3, O3, Fz. destruct (set_coord_spec b AxZ z W2 S3 O3 Fz) as (r & z' & E3 & W3 & H3 & L3 & G3 & _ & B3 & A3 & C3).
  assert (Fa : p_format a = p_format q) by (unfold p_format; congruence). assert (Fb : p_format b = p_format q) by (unfold p_format; congruence).
  rewrite Fa in *. rewrite Fb in *.
  cbn [set_coord] in *. exists r. rewrite E1. cbn [obind]. rewrite E2. cbn [obind]. split; [exact E3|]. split; [exact W3|]. split; [congruence|]. split; [congruence|].
  rewrite Hq in *. rewrite H1 in *. rewrite H2 in *.
  split; [|split].
  - intros [| |]; cbn [axis_of fst snd].
    + exists x'. split; [|exact B1]. rewrite <- G1, !get_coord_raw, H3, H1. rewrite A3, A2 by discriminate. reflexivity.
    + exists y'. split; [|exact B2]. rewrite <- G2, !get_coord_raw, H3, H2. rewrite A3 by discriminate. reflexivity.
    + exists z'. split; [exact G3|exact B3].
  - intros c Rc Pc. rewrite A3, A2, A1; auto; intros ->; discriminate.
  - intros i Hi. rewrite C3, C2, C1; auto.
Qed.

Lemma move_same_length p h : point_wf p -> layout_ok h -> target_ok h -> coords_fit p h ->
  p_data p <> repeat 0 (length (p_data p)) -> get_record_length h = Z.of_nat (length (p_data p)) ->
  exists p', set_header p h = Ok p' /\ outcome_of_move p h p' /\
    (scaling_differs h (p_hdr p) = true -> forall ax x, get_coord ax p = Ok x -> exists x', get_coord ax p' = Ok x' /\
       (Rabs (f64_R x' - f64_R x) <= quantum (scale_of ax h) (offset_of ax h))%R) /\
    (scaling_differs h (p_hdr p) = false -> p_data p' = p_data p) /\
    (forall a, is_raw a = false -> attr_range (get_format h) a <> None -> api_get a p' = api_get a (mkPoint (p_data p) h)) /\
    (forall i, (Z.to_nat (format_bytes (get_format h)) <= i)%nat -> nth_error (p_data p') i = nth_error (p_data p) i).
Proof.
  intros W L T C NZ NL. pose proof W as (_ & Bd & _).
  pose proof (layout_point h (p_data p) L Bd (eq_sym NL)) as W2.
  rewrite set_header_eq. rewrite (proj2 (Z.eqb_neq _ _)); [|intros X; apply NZ; apply zsum_zero; [apply W|exact X]].
  rewrite (proj2 (Z.eqb_eq _ _)) by exact NL. cbn [negb obind].
  destruct (scaling_differs h (p_hdr p)).
  - destruct (coord_value p AxX W) as (x & X). destruct (coord_value p AxY W) as (y & Y). destruct (coord_value p AxZ W) as (z & Z0).
    destruct (set_three (mkPoint (p_data p) h) h x y z W2 eq_refl T (C _ _ X) (C _ _ Y) (C _ _ Z0)) as (r & E & Wr & Hr & Lr & Cr & Ar & Br).
    cbn [get_coord] in X, Y, Z0. rewrite X, Y, Z0. cbn [obind]. exists r. split; [exact E|]. split.
    { split; [exact Hr|]. split; [exact Wr|]. rewrite Lr. cbn [p_data]. now rewrite NL. }
    split; [|split; [discriminate|split; [exact Ar|exact Br]]].
    intros _ ax v G. destruct (Cr ax) as (v' & G' & B'). exists v'. split; [exact G'|].
    destruct ax; cbn [get_coord axis_of fst snd] in *; [rewrite X in G|rewrite Y in G|rewrite Z0 in G]; apply Ok_inj in G; subst v; exact B'.
  - eexists. split; [reflexivity|]. split.
    { split; [reflexivity|]. split; [exact W2|]. cbn [p_data]. now rewrite NL. }
    split; [discriminate|]. split; [reflexivity|]. split; reflexivity.
Qed.

Lemma same_place p h a : point_wf p -> layout_ok h -> get_record_length h = Z.of_nat (length (p_data p)) ->
  attr_range (get_format h) a = attr_range (p_format p) a -> attr_range (get_format h) a <> None ->
  api_get a (mkPoint (p_data p) h) = kept p a.
Proof.
  intros W L NL E P. pose proof W as (_ & Bd & _). pose proof (layout_point h (p_data p) L Bd (eq_sym NL)) as W2.
  unfold kept. destruct (attr_range (p_format p) a) as [[[s w] sg]|] eqn:R; [|congruence].
  rewrite (api_get_spec p a s w sg W R). rewrite (api_get_spec (mkPoint (p_data p) h) a s w sg W2) by exact E. reflexivity.
Qed.

Lemma zero_kept p a : point_wf p -> p_data p = repeat 0 (length (p_data p)) -> kept p a = Ok 0.
Proof.
  intros W E. unfold kept. destruct (attr_range (p_format p) a) as [[[s w] sg]|] eqn:R; [|reflexivity].
  rewrite (api_get_spec p a s w sg W R). unfold rec_int. rewrite E, le_dec_zeros, bits_at_0. destruct W as (Hf & _).
  destruct (attr_range_bounds _ _ _ _ _ Hf R) as (_ & B & _). destruct sg; [|reflexivity]. cbn [decode_bits].
  rewrite to_signed_id'; [reflexivity|lia|]. unfold in_signed. assert (0 < 2 ^ (w - 1)) by (apply Z.pow_pos_nonneg; lia). lia.
Qed.

(** ** scaling that differs enough *)
Lemma far_differs a b : f64_fin a = true -> f64_fin b = true -> (Rabs (f64_R a) <= bpow radix2 950)%R -> (Rabs (f64_R b) <= bpow radix2 950)%R ->
  (bpow radix2 (-51) <= Rabs (f64_R a - f64_R b))%R -> compare_distance a b = false.
Proof.
  intros Fa Fb Ba Bb D. destruct f64_epsilon_R as (EF & ER).
  assert (P2 : (bpow radix2 950 + bpow radix2 950 <= bpow radix2 1000)%R).
  { replace (bpow radix2 950 + bpow radix2 950)%R with (bpow radix2 1 * bpow radix2 950)%R by (change (bpow radix2 1) with 2%R; ring).
    rewrite <- bpow_plus. apply bpow_le. lia. }
  destruct (sub_ok a b Fa Fb) as (Fd & Rd). { apply Rabs_le. apply rabs in Ba. apply rabs in Bb. lra. }
  assert (E51 : (bpow radix2 (-52) < bpow radix2 (-51))%R) by (apply bpow_lt; lia).
  assert (G51 : rnd64 (bpow radix2 (-51)) = bpow radix2 (-51)).
  { unfold rnd64. apply round_generic; [apply valid_rnd_N|]. apply generic_format_bpow. vm_compute. discriminate. }
  assert (M : (bpow radix2 (-51) <= Rabs (rnd64 (f64_R a - f64_R b)))%R).
  { destruct (Rle_or_lt 0 (f64_R a - f64_R b)) as [P|P].
    - rewrite (Rabs_pos_eq _ P) in D. apply Rle_trans with (rnd64 (f64_R a - f64_R b)); [|apply Rle_abs].
      rewrite <- G51. now apply rnd64_le.
    - rewrite (Rabs_left _ P) in D. apply Rle_trans with (- rnd64 (f64_R a - f64_R b))%R; [|rewrite <- Rabs_Ropp; apply Rle_abs].
      assert (G51' : rnd64 (- bpow radix2 (-51)) = (- bpow radix2 (-51))%R).
      { unfold rnd64. apply round_generic; [apply valid_rnd_N|]. apply generic_format_opp. apply generic_format_bpow. vm_compute. discriminate. }
      assert (X : (rnd64 (f64_R a - f64_R b) <= rnd64 (- bpow radix2 (-51)))%R) by (apply rnd64_le; lra). rewrite G51' in X. lra. }
  unfold compare_distance. destruct (f64_le (f64_sub a b) f64_epsilon) eqn:E1; [|reflexivity]. cbn [andb].
  destruct (f64_ge (f64_sub a b) (f64_opp f64_epsilon)) eqn:E2; [|reflexivity]. exfalso.
  apply f64_le_R in E1; auto. unfold f64_ge in E2. apply f64_le_R in E2; auto.
  rewrite f64_opp_R, ER in E2. rewrite ER in E1. rewrite Rd in E1, E2.
  assert (A : (Rabs (rnd64 (f64_R a - f64_R b)) <= bpow radix2 (-52))%R) by (apply Rabs_le; lra). lra.
Qed.

(** ** headers whose schema has a history qualify *)
From Verif Require Import Schema_Spec Schema_Api Schema_Proofs Reader_Schema.

Lemma find_name_some l n d : find_name l n = Some d -> In n (map d_name l).
Proof.
  unfold find_name. intros H. apply find_some in H as (H1 & H2). apply String.eqb_eq in H2. rewrite <- H2. now apply in_map.
Qed.

Lemma sinv_has_iff k s fs n : sinv k s fs -> (In n (map f_name fs) <-> exists d, get_dimension s n = Some d).
Proof.
  intros I. split; [intros H; destruct (sinv_has k s fs n I H) as (d & E & _); eauto|]. intros (d & E).
  destruct I as (np & ds & Es & Hs & Hb & Hnp & Ef & Hn & Hpre & Hfmt & Hlen).
  assert (C : Forall2 same_core (calc_loop 0 0 ds) ds) by apply calc_loop_same.
  assert (Nc : map d_name (calc_loop 0 0 ds) = map d_name ds) by (apply F2_map; [intros a b Hab; apply Hab|exact C]).
  assert (Enames : map f_name fs = map d_name ds) by (rewrite <- Ef; apply names_map).
  assert (E1 : s_dims s = calc_loop 0 0 ds) by (rewrite Es; reflexivity).
  unfold get_dimension in E. rewrite E1 in E. apply find_name_some in E. now rewrite Enames, <- Nc.
Qed.

Lemma sinv_layout k h fs : sinv k (h_schema h) fs -> total_bits fs < 8 * 2 ^ 16 -> layout_ok h.
Proof.
  intros I Ht. destruct (sinv_prefix _ _ _ I) as ((cs & Efs & Hcs) & Hf & Hn). pose proof (sinv_shows _ _ _ I) as (_ & _ & Sb & _).
  fold (get_format h) in *.
  assert (Tc : 0 <= total_bits cs).
  { clear - Hcs. induction Hcs as [|f cs F Hcs IH]; cbn [total_bits fold_right] in *; [lia|]. unfold total_bits in IH. lia. }
  assert (Tt : total_bits fs = 8 * std_length (get_format h) + total_bits cs) by (rewrite Efs, total_bits_app, total_std by exact Hf; reflexivity).
  assert (SL : std_length (get_format h) = format_bytes (get_format h)) by reflexivity.
  pose proof (format_bytes_ge (get_format h)) as F20.
  assert (RL : get_record_length h = total_bits fs / 8).
  { unfold get_record_length, schema_bytes. rewrite Sb. rewrite (Z.mod_small (total_bits fs)) by lia. apply Z.mod_small.
    split; [apply Z.div_pos; lia|apply Z.div_lt_upper_bound; lia]. }
  assert (HD : forall n, has_dim h n = true <-> In n (map f_name fs)).
  { intros n. unfold has_dim. rewrite (sinv_has_iff _ _ _ n I). destruct (get_dimension (h_schema h) n); split; eauto; try discriminate. intros (d & X). discriminate. }
  assert (NC : forall n, In n std_names -> ~ In n (map f_name cs)).
  { intros n Hn1 Hn2. apply in_map_iff in Hn2 as (f & <- & Hin). rewrite Forall_forall in Hcs. destruct (Hcs f Hin) as (X & Y & Z0 & Z1). tauto. }
  split; [exact Hf|]. split.
  { rewrite RL, Tt, SL. rewrite Z.mul_comm. apply Z.div_le_lower_bound; lia. }
  rewrite !HD, Efs, map_app. split; rewrite in_app_iff.
  - assert (NT : ~ In "Time"%string (map f_name cs)) by (apply NC; cbn; tauto).
    destruct (format_cases _ Hf) as [E|[E|[E|E]]]; rewrite E in *; cbn; split; intros X; try discriminate; try tauto; try congruence.
    all: try (repeat (destruct X as [X|X]; try discriminate; try contradiction)).
  - assert (NT : ~ In "Red"%string (map f_name cs)) by (apply NC; cbn; tauto).
    destruct (format_cases _ Hf) as [E|[E|[E|E]]]; rewrite E in *; cbn; split; intros X; try discriminate; try tauto; try congruence.
    all: try (repeat (destruct X as [X|X]; try discriminate; try contradiction)).
Qed.

Lemma scale_950 s : scale_ok s -> (Rabs (f64_R s) <= bpow radix2 950)%R.
Proof. intros (_ & _ & S2). apply Rle_trans with (1 := S2). apply bpow_le. lia. Qed.

Lemma apart_differs h1 h2 : target_ok h1 -> (forall ax, scale_ok (scale_of ax h2) /\ offset_ok (offset_of ax h2)) ->
  scaling_apart h1 h2 -> scaling_differs h1 h2 = true.
Proof.
  intros T1 T2 (ax & D).
  assert (K : forall a, (compare_distance (scale_of a h1) (scale_of a h2) && compare_distance (offset_of a h1) (offset_of a h2) = false) ->
    scaling_differs h1 h2 = true).
  { intros a Ha. unfold scaling_differs. apply negb_true_iff.
    change (x_of (h_scale h1)) with (scale_of AxX h1). change (x_of (h_scale h2)) with (scale_of AxX h2).
    change (y_of (h_scale h1)) with (scale_of AxY h1). change (y_of (h_scale h2)) with (scale_of AxY h2).
    change (z_of (h_scale h1)) with (scale_of AxZ h1). change (z_of (h_scale h2)) with (scale_of AxZ h2).
    change (x_of (h_offset h1)) with (offset_of AxX h1). change (x_of (h_offset h2)) with (offset_of AxX h2).
    change (y_of (h_offset h1)) with (offset_of AxY h1). change (y_of (h_offset h2)) with (offset_of AxY h2).
    change (z_of (h_offset h1)) with (offset_of AxZ h1). change (z_of (h_offset h2)) with (offset_of AxZ h2).
    apply andb_false_iff in Ha as [Ha|Ha]; destruct a; rewrite Ha, ?andb_false_r; reflexivity. }
  apply (K ax). destruct (T1 ax) as (S1 & _). pose proof (target_offset h1 ax T1) as (F1 & B1). destruct (T2 ax) as (S2 & F2 & B2).
  destruct D as [D|D]; [rewrite far_differs|rewrite (far_differs (offset_of ax h1) (offset_of ax h2))]; auto using andb_false_r, scale_950; [apply S1|apply S2].
Qed.

Lemma same_not_differs h1 h2 : same_scaling h1 h2 -> (forall ax, f64_fin (scale_of ax h2) = true /\ f64_fin (offset_of ax h2) = true) ->
  scaling_differs h1 h2 = false.
Proof.
  intros Hs Hf. unfold scaling_differs. apply negb_false_iff.
  destruct (Hs AxX) as (X1 & X2). destruct (Hs AxY) as (Y1 & Y2). destruct (Hs AxZ) as (Z1 & Z2).
  destruct (Hf AxX) as (FX1 & FX2). destruct (Hf AxY) as (FY1 & FY2). destruct (Hf AxZ) as (FZ1 & FZ2).
  unfold x_of, y_of, z_of. unfold scale_of, offset_of in *. cbn [axis_of] in *. rewrite X1, X2, Y1, Y2, Z1, Z2.
  rewrite !compare_distance_refl by assumption. reflexivity.
Qed.

From Coq Require Import ZArith List Lia Bool.
From Coq Require Import ZifyBool ZifyNat.
Import ListNotations.
From Verif Require Import Outcome Bytes Float64 Endian_Model Endian_Proofs Classif_Model
  Schema_Model Header_Model Point_Model Point_Spec Point_Api Point_Proofs.
Local Open Scope Z_scope.

Lemma bits_at_split R s a b : 0 <= s -> 0 <= a -> 0 <= b ->
  bits_at R s (a + b) = bits_at R s a + 2 ^ a * bits_at R (s + a) b.
Proof.
  intros Hs Ha Hb. unfold bits_at. rewrite !Z.pow_add_r by lia.
  assert (0 < 2 ^ s) by (apply Z.pow_pos_nonneg; lia).
  assert (0 < 2 ^ a) by (apply Z.pow_pos_nonneg; lia).
  assert (0 < 2 ^ b) by (apply Z.pow_pos_nonneg; lia).
  rewrite <- Z.div_div by lia. rewrite Z.rem_mul_r by lia. reflexivity.
Qed.

(** The flag byte is the concatenation of the four fields. *)
Lemma flags_compose p : point_wf p ->
  exists rn nr dir edge, 0 <= rn < 8 /\ 0 <= nr < 8 /\ 0 <= dir < 2 /\ 0 <= edge < 2 /\
    get_return_number p = Ok rn /\ get_number_of_returns p = Ok nr /\
    get_scan_direction p = Ok dir /\ get_flight_line_edge p = Ok edge /\
    get_flags p = Ok (flag_byte rn nr dir edge).
Proof.
  intros Hw. set (R := rec_int p).
  exists (bits_at R 112 3), (bits_at R 115 3), (bits_at R 118 1), (bits_at R 119 1).
  split; [apply (bits_at_range _ _ 3); lia|]. split; [apply (bits_at_range _ _ 3); lia|].
  split; [apply (bits_at_range _ _ 1); lia|]. split; [apply (bits_at_range _ _ 1); lia|].
  split; [apply (api_get_spec p AReturnNumber 112 3 false Hw eq_refl)|].
  split; [apply (api_get_spec p ANumberOfReturns 115 3 false Hw eq_refl)|].
  split; [apply (api_get_spec p AScanDirection 118 1 false Hw eq_refl)|].
  split; [apply (api_get_spec p AFlightLineEdge 119 1 false Hw eq_refl)|].
  change (get_flags p) with (api_get AScanFlags p).
  rewrite (api_get_spec p AScanFlags 112 8 false Hw eq_refl). cbn [decode_bits]. f_equal.
  unfold flag_byte. fold R.
  change 8 with (3 + (3 + (1 + 1))) at 1.
  rewrite bits_at_split, (bits_at_split R (112 + 3)), (bits_at_split R (112 + 3 + 3)) by lia.
  change (112 + 3) with 115. change (115 + 3) with 118. change (118 + 1) with 119.
  change (2 ^ 3) with 8. change (2 ^ 1) with 2. ring.
Qed.

(** Colour: get after set, frame. *)
Lemma color_ranges fmt : 0 <= fmt <= 3 -> attr_range fmt ARed <> None ->
  exists rs, attr_range fmt ARed = Some (rs, 16, false) /\ attr_range fmt AGreen = Some (rs + 16, 16, false) /\
    attr_range fmt ABlue = Some (rs + 32, 16, false) /\ 0 <= rs.
Proof.
  intros Hf H. destruct (format_cases _ Hf) as [E|[E|[E|E]]]; rewrite E in *; cbn in *; try congruence.
  - exists 160. repeat split; lia.
  - exists 224. repeat split; lia.
Qed.

Lemma set_color_frame p r g b : point_wf p -> attr_range (p_format p) ARed <> None ->
  in_unsigned 16 r -> in_unsigned 16 g -> in_unsigned 16 b ->
  exists p', set_color p (mkColor r g b) = Ok p' /\ point_wf p' /\ p_hdr p' = p_hdr p /\
    length (p_data p') = length (p_data p) /\
    get_color p' = Ok (mkColor r g b) /\
    (forall a, is_color a = false -> attr_range (p_format p) a <> None -> api_get a p' = api_get a p) /\
    (forall i, (Z.to_nat (format_bytes (p_format p)) <= i)%nat ->
       nth_error (p_data p') i = nth_error (p_data p) i).
Proof.
  intros Hw Hn Hr Hg Hb. pose proof Hw as (Hf & Hd & Hl).
  destruct (color_ranges _ Hf Hn) as (rs & Rr & Rg & Rb & Hrs).
  destruct (set_color_spec p (mkColor r g b) _ _ _ Hw Rr Rg Rb) as (p' & E & W).
  pose proof (wrote_wf _ _ _ Hw W) as Hw'. pose proof W as (W1 & W2 & W3 & W4).
  assert (Ff : p_format p' = p_format p) by (unfold p_format; now rewrite W1).
  cbn [c_red c_green c_blue] in W4.
  assert (G : forall a s w sg, attr_range (p_format p) a = Some (s, w, sg) ->
    api_get a p' = Ok (decode_bits sg w (bits_at (rec_int p') s w))).
  { intros a s w sg Ha. apply api_get_spec; auto. now rewrite Ff. }
  pose proof (attr_range_bounds _ _ _ _ _ Hf Rr) as (C1 & C2 & C3).
  pose proof (attr_range_bounds _ _ _ _ _ Hf Rg) as (C4 & C5 & C6).
  pose proof (attr_range_bounds _ _ _ _ _ Hf Rb) as (C7 & C8 & C9).
  exists p'. split; [exact E|]. split; [exact Hw'|]. split; [exact W1|]. split; [exact W3|]. split; [|split].
  - pose proof (G _ _ _ _ Rr) as G1. pose proof (G _ _ _ _ Rg) as G2. pose proof (G _ _ _ _ Rb) as G3.
    rewrite W4 in G1, G2, G3. cbn [api_get decode_bits] in G1, G2, G3.
    rewrite bits_at_put_same in G3 by lia.
    rewrite bits_at_put_other in G2 by lia. rewrite bits_at_put_same in G2 by lia.
    rewrite !bits_at_put_other in G1 by lia. rewrite bits_at_put_same in G1 by lia.
    unfold in_unsigned in *. rewrite Z.mod_small in G1, G2, G3 by assumption.
    unfold omap in *. destruct (get_color p') as [[cr cg cb]|?|?]; cbn [obind c_red c_green c_blue] in *; try discriminate.
    congruence.
  - intros a Ha Hra. destruct (attr_range (p_format p) a) as [[[s2 w2] sg2]|] eqn:Hr2; [|congruence].
    rewrite (G a s2 w2 sg2 Hr2). rewrite (api_get_spec p a s2 w2 sg2 Hw Hr2).
    destruct (attr_range_bounds _ _ _ _ _ Hf Hr2) as (D1 & D2 & D3).
    assert (O1 : overlapping ARed a = false) by (destruct a; auto; discriminate).
    assert (O2 : overlapping AGreen a = false) by (destruct a; auto; discriminate).
    assert (O3 : overlapping ABlue a = false) by (destruct a; auto; discriminate).
    pose proof (attr_ranges_disjoint _ _ _ _ _ Hf O1 Rr Hr2) as X1. 
    pose proof (attr_ranges_disjoint _ _ _ _ _ Hf O2 Rg Hr2) as X2. 
    pose proof (attr_ranges_disjoint _ _ _ _ _ Hf O3 Rb Hr2) as X3. 
    cbn in X1, X2, X3. rewrite W4, !bits_at_put_other by lia. reflexivity.
  - intros i Hi. destruct (Nat.ltb_spec i (length (p_data p))) as [Hlt|Hge].
    2:{ rewrite (proj2 (nth_error_None (p_data p') i)) by lia.
        rewrite (proj2 (nth_error_None (p_data p) i)) by lia. reflexivity. }
    rewrite !nth_error_bits by (auto; lia). f_equal. fold (rec_int p) (rec_int p'). rewrite W4.
    rewrite !bits_at_put_other by lia. reflexivity.
Qed.

Lemma flags_parts rn nr dir edge : 0 <= rn < 8 -> 0 <= nr < 8 -> 0 <= dir < 2 -> 0 <= edge < 2 ->
  let v := flag_byte rn nr dir edge in
  rn = v mod 8 /\ nr = v / 8 mod 8 /\ dir = v / 64 mod 2 /\ edge = v / 128.
Proof. unfold flag_byte. cbv zeta. intros. Z.to_euclidean_division_equations. lia. Qed.

Definition agrees (p : point) (m : attr -> Z) : Prop :=
  forall a, attr_range (p_format p) a <> None -> api_get a p = Ok (aview m a).

Lemma flag_attr_present fmt a : In a [AScanFlags; AReturnNumber; ANumberOfReturns; AScanDirection; AFlightLineEdge] ->
  attr_range fmt a <> None.
Proof. cbn. intros [<-|[<-|[<-|[<-|[<-|[]]]]]]; discriminate. Qed.

Lemma agrees_flags p (m : attr -> Z) : point_wf p ->
  get_return_number p = Ok (m AReturnNumber) -> get_number_of_returns p = Ok (m ANumberOfReturns) ->
  get_scan_direction p = Ok (m AScanDirection) -> get_flight_line_edge p = Ok (m AFlightLineEdge) ->
  get_flags p = Ok (aview m AScanFlags).
Proof.
  intros Hw H1 H2 H3 H4. destruct (flags_compose p Hw) as (rn & nr & di & ed & _ & _ & _ & _ & E1 & E2 & E3 & E4 & E5).
  cbn [aview]. congruence.
Qed.

Lemma pop_refines p o m : point_wf p -> agrees p m -> pop_ok (p_format p) o ->
  exists p', pop_run o p = Ok p' /\ point_wf p' /\ p_hdr p' = p_hdr p /\
    length (p_data p') = length (p_data p) /\ agrees p' (aop m o) /\
    (forall i, (Z.to_nat (format_bytes (p_format p)) <= i)%nat ->
       nth_error (p_data p') i = nth_error (p_data p) i).
Proof.
  intros Hw Ha Ho. destruct o as [a v|r g b]; cbn [pop_ok pop_run aop] in *.
  - destruct Ho as (Hc & s & w & sg & Hr & Hv).
    destruct (set_get_frame p a v s w sg Hw Hc Hr Hv) as (p' & E & Hw' & Hh & Hl & Hg & Hfr & Hbytes).
    exists p'. split; [exact E|]. split; [exact Hw'|]. split; [exact Hh|]. split; [exact Hl|]. split; [|exact Hbytes].
    assert (Ff : p_format p' = p_format p) by (unfold p_format; now rewrite Hh).
    assert (NF : forall b, b <> AScanFlags -> attr_range (p_format p) b <> None -> api_get b p' = Ok (aset m a v b)).
    { intros b Hb Hpb. destruct (attr_eq_dec a AScanFlags) as [->|Na].
      - destruct (overlapping AScanFlags b) eqn:Hov.
        + cbn [attr_range] in Hr. injection Hr as <- <- <-.
          destruct (flags_compose p' Hw') as (rn & nr & di & ed & R1 & R2 & R3 & R4 & E1 & E2 & E3 & E4 & E5).
          cbn [api_get] in Hg. assert (EV : flag_byte rn nr di ed = v) by congruence.
          destruct (flags_parts rn nr di ed R1 R2 R3 R4) as (P1 & P2 & P3 & P4). rewrite EV in *.
          destruct b; cbn in Hov; try discriminate; try congruence; cbn [api_get aset]; unfold upd; cbn; congruence.
        + rewrite Hfr by auto. rewrite (Ha b Hpb).
          destruct b; cbn in Hov; try discriminate; try congruence; reflexivity.
      - assert (Es : aset m a v = upd m a v) by (destruct a; auto; congruence). rewrite Es. unfold upd.
        destruct (attr_eq_dec b a) as [->|Nb]; [exact Hg|].
        rewrite Hfr; auto.
        + rewrite (Ha b Hpb). destruct b; auto; congruence.
        + destruct a, b; cbn; congruence. }
    intros b Hb. rewrite Ff in Hb. destruct (attr_eq_dec b AScanFlags) as [->|Nb].
    + cbn [api_get]. apply agrees_flags; auto.
      * apply (NF AReturnNumber); [discriminate|apply flag_attr_present; cbn; auto].
      * apply (NF ANumberOfReturns); [discriminate|apply flag_attr_present; cbn; auto].
      * apply (NF AScanDirection); [discriminate|apply flag_attr_present; cbn; auto].
      * apply (NF AFlightLineEdge); [discriminate|apply flag_attr_present; cbn; auto 6].
    + rewrite NF by auto. destruct b; auto; congruence.
  - destruct Ho as (Hn & Hr & Hg & Hb).
    destruct (set_color_frame p r g b Hw Hn Hr Hg Hb) as (p' & E & Hw' & Hh & Hl & Hgc & Hfr & Hbytes).
    exists p'. split; [exact E|]. split; [exact Hw'|]. split; [exact Hh|]. split; [exact Hl|]. split; [|exact Hbytes].
    assert (Ff : p_format p' = p_format p) by (unfold p_format; now rewrite Hh).
    intros a Hpa. rewrite Ff in Hpa.
    destruct (is_color a) eqn:Hca.
    + destruct a; cbn in Hca; try discriminate; cbn [api_get]; unfold omap; rewrite Hgc; reflexivity.
    + rewrite Hfr by auto. rewrite (Ha a Hpa). destruct a; cbn in Hca; try discriminate; reflexivity.
Qed.

Lemma pops_refine os : forall p m, point_wf p -> agrees p m -> Forall (pop_ok (p_format p)) os ->
  exists p', pops_run os p = Ok p' /\ point_wf p' /\ p_hdr p' = p_hdr p /\
    length (p_data p') = length (p_data p) /\ agrees p' (fold_left aop os m) /\
    (forall i, (Z.to_nat (format_bytes (p_format p)) <= i)%nat ->
       nth_error (p_data p') i = nth_error (p_data p) i).
Proof.
  induction os as [|o os IH]; intros p m Hw Ha Ho.
  - exists p. cbn. auto 6.
  - inversion Ho as [|? ? Ho1 Ho2]; subst.
    destruct (pop_refines p o m Hw Ha Ho1) as (p1 & E1 & W1 & H1 & L1 & A1 & B1).
    assert (Ff : p_format p1 = p_format p) by (unfold p_format; now rewrite H1).
    destruct (IH p1 (aop m o) W1 A1) as (p2 & E2 & W2 & H2 & L2 & A2 & B2); [now rewrite Ff|].
    exists p2. cbn [pops_run fold_left]. rewrite E1. cbn [obind].
    split; [exact E2|]. split; [exact W2|]. split; [congruence|]. split; [congruence|]. split; [exact A2|].
    intros i Hi. rewrite B2 by (now rewrite Ff). auto.
Qed.

(** A fresh point reads as all zeros. *)
Lemma le_dec_zeros n : le_dec (repeat 0 n) = 0.
Proof. induction n; cbn [repeat le_dec]; lia. Qed.
Lemma bits_at_0 s w : bits_at 0 s w = 0.
Proof. unfold bits_at. rewrite Zdiv_0_l. apply Zmod_0_l. Qed.

Lemma fresh_point_agrees h : 0 <= get_format h <= 3 -> format_bytes (get_format h) <= get_record_length h ->
  point_wf (point_new h) /\ agrees (point_new h) (fun _ => 0).
Proof.
  intros Hf Hl. assert (Hw : point_wf (point_new h)).
  { unfold point_wf, point_new, p_format. cbn [p_hdr p_data]. split; [exact Hf|]. split.
    - apply Forall_forall. intros x Hx. apply repeat_spec in Hx. subst. unfold is_byte. lia.
    - rewrite repeat_length. pose proof (format_bytes_ge (get_format h)). lia. }
  split; [exact Hw|]. intros a Ha.
  destruct (attr_range (p_format (point_new h)) a) as [[[s w] sg]|] eqn:Hr; [|congruence].
  rewrite (api_get_spec _ a s w sg Hw Hr). unfold rec_int, point_new. cbn [p_data].
  rewrite le_dec_zeros, bits_at_0.
  assert (E : decode_bits sg w 0 = 0).
  { destruct (attr_range_bounds _ _ _ _ _ Hf Hr) as (B1 & B2 & B3).
    destruct sg; cbn [decode_bits]; [|reflexivity].
    apply to_signed_id'; auto.
    unfold in_signed. assert (0 < 2 ^ (w - 1)) by (apply Z.pow_pos_nonneg; lia). lia. }
  rewrite E. destruct a; reflexivity.
Qed.

Lemma flag_set_any p a v : point_wf p ->
  In a [AReturnNumber; ANumberOfReturns; AScanDirection; AFlightLineEdge] ->
  exists p', api_set a v p = Ok p' /\
    api_get a p' = Ok (v mod (if attr_eq_dec a AReturnNumber then 8 else
                              if attr_eq_dec a ANumberOfReturns then 8 else 2)) /\
    (forall b, overlapping a b = false -> attr_range (p_format p) b <> None -> api_get b p' = api_get b p).
Proof.
  intros Hw Hin.
  assert (H : exists s w, attr_range (p_format p) a = Some (s, w, false) /\ is_color a = false /\ a <> ATime /\
     2 ^ w = (if attr_eq_dec a AReturnNumber then 8 else if attr_eq_dec a ANumberOfReturns then 8 else 2)).
  { cbn in Hin. destruct Hin as [<-|[<-|[<-|[<-|[]]]]]; cbn [attr_range]; do 2 eexists; repeat split; discriminate. }
  destruct H as (s & w & Hr & Hc & Ht & <-).
  pose proof Hw as (Hf & _).
  destruct (attr_range_bounds _ _ _ _ _ Hf Hr) as (B1 & B2 & B3).
  destruct (api_set_spec p a v s w false Hw Hc Hr) as (p' & E & W); [congruence|].
  pose proof (wrote_wf _ _ _ Hw W) as Hw'. destruct W as (W1 & W2 & W3 & W4).
  assert (Ff : p_format p' = p_format p) by (unfold p_format; now rewrite W1).
  exists p'. split; [exact E|]. split.
  - rewrite (api_get_spec p' a s w false Hw') by (now rewrite Ff). cbn [decode_bits].
    rewrite W4, bits_at_put_same by lia. reflexivity.
  - intros b Hb Hrb. destruct (attr_range (p_format p) b) as [[[s2 w2] sg2]|] eqn:Hr2; [|congruence].
    rewrite (api_get_spec p' b s2 w2 sg2 Hw') by (rewrite Ff; exact Hr2).
    rewrite (api_get_spec p b s2 w2 sg2 Hw Hr2).
    destruct (attr_range_bounds _ _ _ _ _ Hf Hr2) as (D1 & D2 & D3).
    pose proof (attr_ranges_disjoint _ _ _ _ _ Hf Hb Hr Hr2) as Hdis. cbn in Hdis.
    rewrite W4, bits_at_put_other by lia. reflexivity.
Qed.

Lemma get_color_wf p : point_wf p -> exists c, get_color p = Ok c.
Proof.
  intros Hw. pose proof Hw as (Hf & _). destruct (attr_range (p_format p) ARed) eqn:E.
  - destruct (color_ranges _ Hf) as (rs & R1 & _); [congruence|].
    pose proof (api_get_spec p ARed _ _ _ Hw R1) as G. cbn [api_get] in G. unfold omap in G.
    destruct (get_color p); try discriminate. eauto.
  - destruct (color_absent p Hw E) as (_ & ->). eauto.
Qed.

Lemma time_present p t : point_wf p -> attr_range (p_format p) ATime <> None ->
  exists p', set_time p t = Ok p' /\ get_time p' = Ok t /\ point_wf p' /\ get_color p' = get_color p.
Proof.
  intros Hw Ht. destruct (attr_range (p_format p) ATime) as [[[s w] sg]|] eqn:Hr; [|congruence].
  pose proof Hw as (Hf & _).
  assert (Hws : w = 64 /\ sg = false).
  { destruct (format_cases _ Hf) as [E|[E|[E|E]]]; rewrite E in Hr; cbn in Hr; try discriminate; injection Hr as <- <- <-; auto. }
  destruct Hws as [-> ->].
  destruct (set_get_frame p ATime (f64_bits t) s 64 false Hw eq_refl Hr) as (p' & E & Hw' & Hh & _ & Hg & Hfr & _).
  { cbn [value_fits]. apply f64_bits_range. }
  cbn [api_set] in E. rewrite f64_of_bits_bits in E.
  exists p'. split; [exact E|]. split; [|split; [exact Hw'|]].
  - cbn [api_get] in Hg. unfold omap in Hg. destruct (get_time p') as [t'|?|?]; try discriminate.
    cbn [obind] in Hg. assert (Eb : f64_bits t' = f64_bits t) by congruence.
    f_equal. rewrite <- (f64_of_bits_bits t'), <- (f64_of_bits_bits t). now rewrite Eb.
  - destruct (attr_range (p_format p) ARed) eqn:Er.
    + pose proof (Hfr ARed eq_refl ltac:(congruence)) as G1.
      destruct (color_ranges _ Hf ltac:(rewrite Er; discriminate)) as (rs & R1 & R2 & R3 & _).
      pose proof (Hfr AGreen eq_refl ltac:(congruence)) as G2.
      pose proof (Hfr ABlue eq_refl ltac:(congruence)) as G3.
      cbn [api_get] in G1, G2, G3. unfold omap in *.
      destruct (get_color_wf p Hw) as ([r g b] & Ec). destruct (get_color_wf p' Hw') as ([r' g' b'] & Ec').
      rewrite Ec, Ec' in *. cbn [obind c_red c_green c_blue] in *. congruence.
    + destruct (color_absent p Hw Er) as (_ & ->).
      destruct (color_absent p' Hw') as (_ & ->); [|reflexivity].
      unfold p_format in *. now rewrite Hh.
Qed.

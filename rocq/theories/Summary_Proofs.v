(** Proofs for Summary_Model.v. *)
From Coq Require Import ZArith List Bool Lia String.
Import ListNotations.
From Verif Require Import Outcome Bytes Float64 Classif_Model Classif_Proofs Header_Model Point_Model
  Point_Spec Point_Api Point_Proofs Point_Hist Coord_Api Coord_Header Summary_Model Summary_Spec.
Local Open Scope Z_scope.
Local Notation length := List.length (only parsing).

(** [q] is [q0] with attribute values [m]. *)
Definition st (q0 q : point) (m : attr -> Z) : Prop :=
  point_wf q /\ p_hdr q = p_hdr q0 /\ length (p_data q) = length (p_data q0) /\ agrees q m.

Lemma agrees_ext q m m' : agrees q m -> (forall a, a <> AScanFlags -> attr_range (p_format q) a <> None -> m a = m' a) -> agrees q m'.
Proof.
  intros A E a Ha. rewrite (A a Ha). f_equal. destruct a; cbn [aview]; try (apply E; [discriminate|exact Ha]).
  rewrite (E AReturnNumber), (E ANumberOfReturns), (E AScanDirection), (E AFlightLineEdge); try discriminate; reflexivity.
Qed.
Lemma st_ext q0 q m m' : st q0 q m -> (forall a, a <> AScanFlags -> attr_range (p_format q0) a <> None -> m a = m' a) -> st q0 q m'.
Proof.
  intros (W & H & L & A) E. split; [exact W|]. split; [exact H|]. split; [exact L|].
  apply (agrees_ext q m m' A). unfold p_format in *. rewrite H. exact E.
Qed.
Lemma st_refl q m : point_wf q -> agrees q m -> st q q m.
Proof. intros W A. repeat split; auto; apply W. Qed.
Lemma st_fmt q0 q m : st q0 q m -> p_format q = p_format q0.
Proof. intros (_ & H & _). unfold p_format. now rewrite H. Qed.
Lemma st_get q0 q m a : st q0 q m -> a <> AScanFlags -> attr_range (p_format q0) a <> None -> api_get a q = Ok (m a).
Proof.
  intros S0 N R. pose proof (st_fmt _ _ _ S0) as F. destruct S0 as (_ & _ & _ & A). rewrite A by (rewrite F; exact R).
  destruct a; try reflexivity; congruence.
Qed.
Lemma st_op q0 q m o : st q0 q m -> pop_ok (p_format q0) o -> exists q', pop_run o q = Ok q' /\ st q0 q' (aop m o).
Proof.
  intros S0 P. pose proof (st_fmt _ _ _ S0) as F. destruct S0 as (W & H & L & A).
  destruct (pop_refines q o m W A) as (q' & E & W' & H' & L' & A' & _); [rewrite F; exact P|].
  exists q'. split; [exact E|]. split; [exact W'|]. split; [congruence|]. split; [congruence|exact A'].
Qed.

(** plain integer attributes *)
Definition plain (a : attr) : bool :=
  match a with
  | ARawX | ARawY | ARawZ | AIntensity | AReturnNumber | ANumberOfReturns | AScanDirection | AFlightLineEdge
  | AScanAngleRank | AUserData | APointSourceId => true
  | _ => false
  end.
Lemma plain_facts a : plain a = true -> is_color a = false /\ a <> AScanFlags /\ exists r, forall fmt, attr_range fmt a = Some r.
Proof. destruct a; cbn; intros; try discriminate; (split; [reflexivity|]); (split; [discriminate|]); eexists; intros; reflexivity. Qed.

Lemma value_of_wf p a vp : point_wf p -> agrees p vp -> plain a = true -> api_get a p = Ok (vp a) /\
  forall fmt, pop_ok fmt (PSet a (vp a)).
Proof.
  intros W A Pl. destruct (plain_facts a Pl) as (C & N & r & R).
  assert (G : api_get a p = Ok (vp a)).
  { rewrite A by (rewrite R; discriminate). destruct a; try reflexivity; congruence. }
  split; [exact G|]. destruct r as [[s w] sg].
  destruct (fits_std p a s w sg W (R 0) C) as (v & E & _ & F). rewrite G in E. injection E as <-. exact F.
Qed.

Lemma extend_st a p vp q0 mn lo r0 mx hi : plain a = true -> point_wf p -> agrees p vp -> st q0 mn lo -> st r0 mx hi ->
  exists mn' mx', extend (api_get a) (fun q v => api_set a v q) p (mn, mx) = Ok (mn', mx') /\
    st q0 mn' (upd lo a (Z.min (vp a) (lo a))) /\ st r0 mx' (upd hi a (Z.max (vp a) (hi a))).
Proof.
  intros Pl W A S1 S2. destruct (value_of_wf p a vp W A Pl) as (G & F). destruct (plain_facts a Pl) as (C & N & r & R).
  unfold extend. rewrite G. cbn [obind]. rewrite (st_get q0 mn lo a S1 N) by (rewrite R; discriminate). cbn [obind].
  assert (As : forall m v, aop m (PSet a v) = upd m a v) by (intros; destruct a; try reflexivity; congruence).
  assert (E1 : exists mn', (if vp a <? lo a then api_set a (vp a) mn else Ok mn) = Ok mn' /\ st q0 mn' (upd lo a (Z.min (vp a) (lo a)))).
  { destruct (Z.ltb_spec (vp a) (lo a)).
    - destruct (st_op q0 mn lo (PSet a (vp a)) S1 (F _)) as (mn' & E & S'). exists mn'. split; [exact E|]. rewrite As in S'.
      rewrite Z.min_l by lia. exact S'.
    - exists mn. split; [reflexivity|]. apply (st_ext _ _ _ _ S1). intros b _ _. unfold upd. destruct (attr_eq_dec b a); [subst; lia|reflexivity]. }
  assert (E2 : exists mx', (if vp a >? hi a then api_set a (vp a) mx else Ok mx) = Ok mx' /\ st r0 mx' (upd hi a (Z.max (vp a) (hi a)))).
  { rewrite Z.gtb_ltb. destruct (Z.ltb_spec (hi a) (vp a)).
    - destruct (st_op r0 mx hi (PSet a (vp a)) S2 (F _)) as (mx' & E & S'). exists mx'. split; [exact E|]. rewrite As in S'.
      rewrite Z.max_l by lia. exact S'.
    - exists mx. split; [reflexivity|]. apply (st_ext _ _ _ _ S2). intros b _ _. unfold upd. destruct (attr_eq_dec b a); [subst; lia|reflexivity]. }
  destruct E1 as (mn' & E1 & T1). destruct E2 as (mx' & E2 & T2). exists mn', mx'. rewrite E1. cbn [obind].
  rewrite (st_get r0 mx hi a S2 N) by (rewrite R; discriminate). cbn [obind]. rewrite E2. cbn [obind]. auto.
Qed.

(** time *)
Definition fb := f64_of_bits.
Lemma omap_time p v : api_get ATime p = Ok v -> get_time p = Ok (fb v) /\ 0 <= v < 2 ^ 64.
Proof.
  cbn [api_get]. unfold omap. destruct (get_time p) as [t| |]; cbn [obind]; try discriminate. intros E. injection E as <-.
  unfold fb. rewrite f64_of_bits_bits. split; [reflexivity|apply f64_bits_range].
Qed.
Lemma time_fits fmt v : attr_range fmt ATime <> None -> 0 <= v < 2 ^ 64 -> pop_ok fmt (PSet ATime v).
Proof.
  intros R B. split; [reflexivity|]. cbn [attr_range] in *. destruct ((fmt =? 1) || (fmt =? 3)); [|congruence].
  eexists _, _, _. split; [reflexivity|]. exact B.
Qed.
Definition time_min (v lo : Z) : Z := if f64_lt (fb v) (fb lo) then v else lo.
Definition time_max (v hi : Z) : Z := if f64_lt (fb hi) (fb v) then v else hi.
Lemma extend_time_st p vp q0 mn lo r0 mx hi : point_wf p -> agrees p vp -> st q0 mn lo -> st r0 mx hi ->
  p_format q0 = p_format p -> p_format r0 = p_format p -> attr_range (p_format p) ATime <> None ->
  exists mn' mx', extend_time p (mn, mx) = Ok (mn', mx') /\
    st q0 mn' (upd lo ATime (time_min (vp ATime) (lo ATime))) /\ st r0 mx' (upd hi ATime (time_max (vp ATime) (hi ATime))).
Proof.
  intros W A S1 S2 F1 F2 R. unfold extend_time.
  destruct (omap_time p _ (A ATime R)) as (G & B). cbn [aview] in *. rewrite G. cbn [obind].
  destruct (omap_time mn _ (st_get q0 mn lo ATime S1 ltac:(discriminate) ltac:(rewrite F1; exact R))) as (G1 & B1).
  destruct (omap_time mx _ (st_get r0 mx hi ATime S2 ltac:(discriminate) ltac:(rewrite F2; exact R))) as (G2 & B2).
  rewrite G1. cbn [obind]. unfold time_min, time_max, f64_gt.
  assert (E1 : exists mn', (if f64_lt (fb (vp ATime)) (fb (lo ATime)) then set_time mn (fb (vp ATime)) else Ok mn) = Ok mn' /\
     st q0 mn' (upd lo ATime (if f64_lt (fb (vp ATime)) (fb (lo ATime)) then vp ATime else lo ATime))).
  { destruct (f64_lt (fb (vp ATime)) (fb (lo ATime))).
    - destruct (st_op q0 mn lo (PSet ATime (vp ATime)) S1) as (mn' & E & S'); [apply time_fits; [rewrite F1; exact R|exact B]|]. exists mn'. split; [exact E|exact S'].
    - exists mn. split; [reflexivity|]. apply (st_ext _ _ _ _ S1). intros b _ _. unfold upd. destruct (attr_eq_dec b ATime); [subst; reflexivity|reflexivity]. }
  assert (E2 : exists mx', (if f64_lt (fb (hi ATime)) (fb (vp ATime)) then set_time mx (fb (vp ATime)) else Ok mx) = Ok mx' /\
     st r0 mx' (upd hi ATime (if f64_lt (fb (hi ATime)) (fb (vp ATime)) then vp ATime else hi ATime))).
  { destruct (f64_lt (fb (hi ATime)) (fb (vp ATime))).
    - destruct (st_op r0 mx hi (PSet ATime (vp ATime)) S2) as (mx' & E & S'); [apply time_fits; [rewrite F2; exact R|exact B]|]. exists mx'. split; [exact E|exact S'].
    - exists mx. split; [reflexivity|]. apply (st_ext _ _ _ _ S2). intros b _ _. unfold upd. destruct (attr_eq_dec b ATime); [subst; reflexivity|reflexivity]. }
  destruct E1 as (mn' & E1 & T1). destruct E2 as (mx' & E2 & T2). exists mn', mx'. rewrite E1. cbn [obind].
  rewrite G2. cbn [obind]. rewrite E2. cbn [obind]. auto.
Qed.

(** class *)
Lemma class_get_mod f : class_get f = f mod 32.
Proof.
  unfold class_get, class_table_size. change (32 - 1) with (Z.ones 5). rewrite Z.land_ones by lia. change (2 ^ 5) with 32.
  apply Z.mod_small. pose proof (Z.mod_pos_bound f 32 ltac:(lia)). lia.
Qed.
Lemma class_get_range f : 0 <= class_get f < 32.
Proof. rewrite class_get_mod. apply Z.mod_pos_bound. lia. Qed.
Lemma class_get_small c : 0 <= c < 32 -> class_get c = c.
Proof. intros. rewrite class_get_mod. apply Z.mod_small. lia. Qed.
Lemma class_fits fmt v : 0 <= v < 32 -> pop_ok fmt (PSet AClassification (class_of_byte v)).
Proof.
  intros B. split; [reflexivity|]. eexists _, _, _. split; [reflexivity|]. unfold class_of_byte. cbn [value_fits]. unfold in_unsigned.
  rewrite Z.mod_small by lia. change (2 ^ 8) with 256. lia.
Qed.
Definition class_min (v lo : Z) : Z := if class_get v <? class_get lo then class_get v else lo.
Definition class_max (v hi : Z) : Z := if class_get hi <? class_get v then class_get v else hi.
Lemma extend_class_st p vp q0 mn lo r0 mx hi : point_wf p -> agrees p vp -> st q0 mn lo -> st r0 mx hi ->
  exists mn' mx', extend_class p (mn, mx) = Ok (mn', mx') /\
    st q0 mn' (upd lo AClassification (class_min (vp AClassification) (lo AClassification))) /\
    st r0 mx' (upd hi AClassification (class_max (vp AClassification) (hi AClassification))).
Proof.
  intros W A S1 S2. unfold extend_class.
  assert (G : get_classification p = Ok (vp AClassification)) by (apply (A AClassification); discriminate).
  assert (G1 : get_classification mn = Ok (lo AClassification)) by (apply (st_get q0 mn lo AClassification S1); discriminate).
  assert (G2 : get_classification mx = Ok (hi AClassification)) by (apply (st_get r0 mx hi AClassification S2); discriminate).
  rewrite G, G1, G2. cbn [obind].
  set (v := vp AClassification). set (l := lo AClassification). set (g := hi AClassification).
  pose proof (class_get_range v). pose proof (class_get_range l). pose proof (class_get_range g).
  unfold class_min, class_max.
  assert (E1 : exists mn', (if Z.min (class_get v) (class_get l) <? class_get l then set_classification mn (class_of_byte (Z.min (class_get v) (class_get l))) else Ok mn) = Ok mn' /\
     st q0 mn' (upd lo AClassification (if class_get v <? class_get l then class_get v else l))).
  { destruct (Z.ltb_spec (class_get v) (class_get l)) as [L|L].
    - rewrite Z.min_l by lia. destruct (Z.ltb_spec (class_get v) (class_get l)); [|lia].
      destruct (st_op q0 mn lo (PSet AClassification (class_of_byte (class_get v))) S1) as (mn' & E & S'); [apply class_fits; lia|]. exists mn'. split; [exact E|].
      cbn [aop aset] in S'. replace (class_of_byte (class_get v)) with (class_get v) in S'; [exact S'|]. unfold class_of_byte. rewrite Z.mod_small; lia.
    - rewrite Z.min_r by lia. rewrite Z.ltb_irrefl.
      exists mn. split; [reflexivity|]. apply (st_ext _ _ _ _ S1). intros b _ _. unfold upd. destruct (attr_eq_dec b AClassification); [subst; reflexivity|reflexivity]. }
  assert (E2 : exists mx', (if Z.max (class_get v) (class_get g) >? class_get g then set_classification mx (class_of_byte (Z.max (class_get v) (class_get g))) else Ok mx) = Ok mx' /\
     st r0 mx' (upd hi AClassification (if class_get g <? class_get v then class_get v else g))).
  { rewrite Z.gtb_ltb. destruct (Z.ltb_spec (class_get g) (class_get v)) as [L|L].
    - rewrite Z.max_l by lia. destruct (Z.ltb_spec (class_get g) (class_get v)); [|lia].
      destruct (st_op r0 mx hi (PSet AClassification (class_of_byte (class_get v))) S2) as (mx' & E & S'); [apply class_fits; lia|]. exists mx'. split; [exact E|].
      cbn [aop aset] in S'. replace (class_of_byte (class_get v)) with (class_get v) in S'; [exact S'|]. unfold class_of_byte. rewrite Z.mod_small; lia.
    - rewrite Z.max_r by lia. rewrite Z.ltb_irrefl.
      exists mx. split; [reflexivity|]. apply (st_ext _ _ _ _ S2). intros b _ _. unfold upd. destruct (attr_eq_dec b AClassification); [subst; reflexivity|reflexivity]. }
  destruct E1 as (mn' & E1 & T1). destruct E2 as (mx' & E2 & T2). exists mn', mx'. rewrite E1. cbn [obind]. rewrite E2. cbn [obind]. auto.
Qed.

(** colour *)
Lemma color_of p m : point_wf p -> attr_range (p_format p) ARed <> None -> api_get ARed p = Ok (m ARed) -> api_get AGreen p = Ok (m AGreen) ->
  api_get ABlue p = Ok (m ABlue) -> get_color p = Ok (mkColor (m ARed) (m AGreen) (m ABlue)) /\
  in_unsigned 16 (m ARed) /\ in_unsigned 16 (m AGreen) /\ in_unsigned 16 (m ABlue).
Proof.
  intros W R H1 H2 H3. destruct (color_value p W) as (c & E & K1 & K2 & K3 & I1 & I2 & I3). cbn [api_get] in *. rewrite E in H1, H2, H3.
  cbn [omap obind] in *. injection H1 as E1. injection H2 as E2. injection H3 as E3. rewrite <- E1, <- E2, <- E3. destruct c as [r g b]. auto.
Qed.
Lemma color_present fmt : attr_range fmt ARed <> None -> attr_range fmt AGreen <> None /\ attr_range fmt ABlue <> None.
Proof. cbn [attr_range]. destruct (fmt =? 2); [split; discriminate|]. destruct (fmt =? 3); [split; discriminate|congruence]. Qed.
Definition upd3 (m : attr -> Z) r g b := upd (upd (upd m ARed r) AGreen g) ABlue b.
Lemma upd3_get m r g b a : upd3 m r g b a = match a with ARed => r | AGreen => g | ABlue => b | _ => m a end.
Proof. unfold upd3, upd. destruct a; reflexivity. Qed.
Lemma upd_get m a v b : upd m a v b = if attr_eq_dec b a then v else m b. Proof. reflexivity. Qed.

Lemma extend_color_st p vp q0 mn lo r0 mx hi : point_wf p -> agrees p vp -> st q0 mn lo -> st r0 mx hi ->
  p_format q0 = p_format p -> p_format r0 = p_format p -> attr_range (p_format p) ARed <> None ->
  exists mn' mx', extend_color p (mn, mx) = Ok (mn', mx') /\
    st q0 mn' (upd3 lo (Z.min (vp ARed) (lo ARed)) (Z.min (vp AGreen) (lo AGreen)) (Z.min (vp ABlue) (lo ABlue))) /\
    st r0 mx' (upd3 hi (Z.max (vp ARed) (hi ARed)) (Z.max (vp AGreen) (hi AGreen)) (Z.max (vp ABlue) (hi ABlue))).
Proof.
  intros W A S1 S2 F1 F2 R. unfold extend_color. destruct (color_present _ R) as (Rg & Rb).
  destruct (color_of p vp W R (A ARed R) (A AGreen Rg) (A ABlue Rb)) as (G & I1 & I2 & I3).
  destruct (color_of mn lo) as (G1 & J1 & J2 & J3);
    [apply S1|rewrite (st_fmt _ _ _ S1), F1; exact R|apply (st_get q0 mn lo _ S1); [discriminate|rewrite F1; assumption] ..|].
  destruct (color_of mx hi) as (G2 & K1 & K2 & K3);
    [apply S2|rewrite (st_fmt _ _ _ S2), F2; exact R|apply (st_get r0 mx hi _ S2); [discriminate|rewrite F2; assumption] ..|].
  rewrite G, G1, G2. cbn [obind c_red c_green c_blue].
  assert (Pk1 : forall v l, (if v <? l then v else l) = Z.min v l) by (intros; destruct (Z.ltb_spec v l); lia).
  assert (Pk2 : forall v l, (if v >? l then v else l) = Z.max v l) by (intros; rewrite Z.gtb_ltb; destruct (Z.ltb_spec l v); lia).
  rewrite !Pk1, !Pk2.
  assert (M1 : forall v l, in_unsigned 16 v -> in_unsigned 16 l -> in_unsigned 16 (Z.min v l)) by (unfold in_unsigned; lia).
  assert (M2 : forall v l, in_unsigned 16 v -> in_unsigned 16 l -> in_unsigned 16 (Z.max v l)) by (unfold in_unsigned; lia).
  match goal with |- exists mn' mx', obind ?X _ = _ /\ _ => assert (E1 : exists mn', X = Ok mn' /\ st q0 mn' (upd3 lo (Z.min (vp ARed) (lo ARed)) (Z.min (vp AGreen) (lo AGreen)) (Z.min (vp ABlue) (lo ABlue)))) end.
  { match goal with |- exists q, (if ?c then _ else _) = _ /\ _ => destruct c eqn:B end.
    - destruct (st_op q0 mn lo (PColor (Z.min (vp ARed) (lo ARed)) (Z.min (vp AGreen) (lo AGreen)) (Z.min (vp ABlue) (lo ABlue))) S1) as (mn' & E & S').
      { rewrite F1. cbn [pop_ok]. auto 6. }
      exists mn'. split; [exact E|exact S'].
    - exists mn. split; [reflexivity|]. apply orb_false_iff in B as (B & B3). apply orb_false_iff in B as (B1 & B2). rewrite Z.ltb_ge in B1, B2, B3.
      apply (st_ext _ _ _ _ S1). intros b _ _. rewrite upd3_get. destruct b; try reflexivity; lia. }
  destruct E1 as (mn' & E1 & T1). rewrite E1. cbn [obind].
  match goal with |- exists mn' mx', obind ?X _ = _ /\ _ => assert (E2 : exists mx', X = Ok mx' /\ st r0 mx' (upd3 hi (Z.max (vp ARed) (hi ARed)) (Z.max (vp AGreen) (hi AGreen)) (Z.max (vp ABlue) (hi ABlue)))) end.
  { match goal with |- exists q, (if ?c then _ else _) = _ /\ _ => destruct c eqn:B end.
    - destruct (st_op r0 mx hi (PColor (Z.max (vp ARed) (hi ARed)) (Z.max (vp AGreen) (hi AGreen)) (Z.max (vp ABlue) (hi ABlue))) S2) as (mx' & E & S').
      { rewrite F2. cbn [pop_ok]. auto 6. }
      exists mx'. split; [exact E|exact S'].
    - exists mx. split; [reflexivity|]. apply orb_false_iff in B as (B & B3). apply orb_false_iff in B as (B1 & B2). rewrite Z.gtb_ltb, Z.ltb_ge in B1, B2, B3.
      apply (st_ext _ _ _ _ S2). intros b _ _. rewrite upd3_get. destruct b; try reflexivity; lia. }
  destruct E2 as (mx' & E2 & T2). rewrite E2. cbn [obind]. exists mn', mx'. auto.
Qed.

(** ** one point *)
Definition lowf (vp lo : attr -> Z) (a : attr) : Z :=
  match a with
  | ATime => time_min (vp a) (lo a)
  | AClassification => class_min (vp a) (lo a)
  | AScanFlags => lo a
  | _ => Z.min (vp a) (lo a)
  end.
Definition highf (vp hi : attr -> Z) (a : attr) : Z :=
  match a with
  | ATime => time_max (vp a) (hi a)
  | AClassification => class_max (vp a) (hi a)
  | AScanFlags => hi a
  | _ => Z.max (vp a) (hi a)
  end.

Definition minmax (ht hc : bool) (p : point) (mm : point * point) : outcome (point * point) :=
  let! mm := extend get_raw_x set_raw_x p mm in
  let! mm := extend get_raw_y set_raw_y p mm in
  let! mm := extend get_raw_z set_raw_z p mm in
  let! mm := extend get_intensity set_intensity p mm in
  let! mm := if ht : bool then extend_time p mm else Ok mm in
  let! mm := extend get_return_number set_return_number p mm in
  let! mm := extend get_number_of_returns set_number_of_returns p mm in
  let! mm := extend get_scan_direction set_scan_direction p mm in
  let! mm := extend get_flight_line_edge set_flight_line_edge p mm in
  let! mm := extend get_scan_angle set_scan_angle p mm in
  let! mm := extend get_user_data set_user_data p mm in
  let! mm := extend get_point_source_id set_point_source_id p mm in
  let! mm := extend_class p mm in
  if hc : bool then extend_color p mm else Ok mm.

Lemma minmax_st ht hc p q0 mn lo r0 mx hi : point_wf p -> st q0 mn lo -> st r0 mx hi ->
  p_format q0 = p_format p -> p_format r0 = p_format p ->
  (ht = true <-> attr_range (p_format p) ATime <> None) -> (hc = true <-> attr_range (p_format p) ARed <> None) ->
  exists mn' mx', minmax ht hc p (mn, mx) = Ok (mn', mx') /\ st q0 mn' (lowf (view_of p) lo) /\ st r0 mx' (highf (view_of p) hi).
Proof.
  intros W S1 S2 F1 F2 Ht Hc. pose proof (view_agrees p W) as A. set (vp := view_of p) in *.
  unfold minmax.
  Ltac ext a E := match goal with S1 : st ?q0 ?mn ?lo, S2 : st ?r0 ?mx ?hi, W : point_wf ?p, A : agrees ?p ?vp |- _ =>
    let mn' := fresh "mn" in let mx' := fresh "mx" in let T1 := fresh "S1" in let T2 := fresh "S2" in
    destruct (extend_st a p vp q0 mn lo r0 mx hi eq_refl W A S1 S2) as (mn' & mx' & E & T1 & T2);
    cbn [api_get] in E; match type of E with extend ?g ?s _ _ = _ => change s with (fun q v => api_set a v q) in E end end.
  Ltac step a set := match goal with S1 : st ?q0 ?mn ?lo, S2 : st ?r0 ?mx ?hi, W : point_wf ?p, A : agrees ?p ?vp |- context [extend ?g set ?p (?mn, ?mx)] =>
    let mn' := fresh "mn" in let mx' := fresh "mx" in let T1 := fresh "S1" in let T2 := fresh "S2" in let E := fresh "E" in
    destruct (extend_st a p vp q0 mn lo r0 mx hi eq_refl W A S1 S2) as (mn' & mx' & E & T1 & T2);
    change (extend g set p (mn, mx) = Ok (mn', mx')) in E; rewrite E; cbn [obind]; clear E; clear S1 S2 end.
  step ARawX set_raw_x. step ARawY set_raw_y. step ARawZ set_raw_z. step AIntensity set_intensity.
  match goal with S1 : st q0 ?mn ?lo', S2 : st r0 ?mx ?hi' |- _ =>
    assert (T : exists mn' mx', (if ht then extend_time p (mn, mx) else Ok (mn, mx)) = Ok (mn', mx') /\
      st q0 mn' (upd lo' ATime (time_min (vp ATime) (lo' ATime))) /\ st r0 mx' (upd hi' ATime (time_max (vp ATime) (hi' ATime)))) end.
  { destruct ht.
    - apply extend_time_st; auto. now apply Ht.
    - eexists _, _. split; [reflexivity|].
      assert (N : forall v, attr_range (p_format p) ATime = v -> v = None).
      { intros v E. destruct v; [|reflexivity]. assert (false = true) by (apply Ht; congruence). discriminate. }
      specialize (N _ eq_refl). split.
      + eapply st_ext; [eassumption|]. intros b _ Rb. rewrite (upd_get _ ATime). destruct (attr_eq_dec b ATime) as [->|]; [rewrite F1 in Rb; congruence|reflexivity].
      + eapply st_ext; [eassumption|]. intros b _ Rb. rewrite (upd_get _ ATime). destruct (attr_eq_dec b ATime) as [->|]; [rewrite F2 in Rb; congruence|reflexivity]. }
  destruct T as (mnt & mxt & E & T1 & T2). rewrite E. cbn [obind]. clear E.
  repeat match goal with H : st q0 ?m _ |- _ => tryif constr_eq m mnt then fail else clear H end.
  repeat match goal with H : st r0 ?m _ |- _ => tryif constr_eq m mxt then fail else clear H end.
  step AReturnNumber set_return_number. step ANumberOfReturns set_number_of_returns. step AScanDirection set_scan_direction.
  step AFlightLineEdge set_flight_line_edge. step AScanAngleRank set_scan_angle. step AUserData set_user_data. step APointSourceId set_point_source_id.
  match goal with S1 : st q0 ?mn ?lo', S2 : st r0 ?mx ?hi' |- _ =>
    destruct (extend_class_st p vp q0 mn lo' r0 mx hi' W A S1 S2) as (mnc & mxc & E & U1 & U2) end.
  rewrite E. cbn [obind]. clear E.
  repeat match goal with H : st q0 ?m _ |- _ => tryif constr_eq m mnc then fail else clear H end.
  repeat match goal with H : st r0 ?m _ |- _ => tryif constr_eq m mxc then fail else clear H end.
  match type of U1 with st q0 _ ?lo' => match type of U2 with st r0 _ ?hi' =>
    assert (T : exists mn' mx', (if hc then extend_color p (mnc, mxc) else Ok (mnc, mxc)) = Ok (mn', mx') /\
      st q0 mn' (upd3 lo' (Z.min (vp ARed) (lo' ARed)) (Z.min (vp AGreen) (lo' AGreen)) (Z.min (vp ABlue) (lo' ABlue))) /\
      st r0 mx' (upd3 hi' (Z.max (vp ARed) (hi' ARed)) (Z.max (vp AGreen) (hi' AGreen)) (Z.max (vp ABlue) (hi' ABlue)))) end end.
  { destruct hc.
    - apply extend_color_st; auto. now apply Hc.
    - eexists _, _. split; [reflexivity|].
      assert (N : attr_range (p_format p) ARed = None).
      { destruct (attr_range (p_format p) ARed) eqn:E; [|reflexivity]. assert (false = true) by (apply Hc; congruence). discriminate. }
      assert (Nc : forall b, is_color b = true -> attr_range (p_format p) b = None).
      { intros b. cbn [attr_range] in N. destruct b; cbn; try discriminate; intros _; destruct (p_format p =? 2); try discriminate; destruct (p_format p =? 3); try discriminate; reflexivity. }
      split.
      + eapply st_ext; [eassumption|]. intros b _ Rb. rewrite F1 in Rb. rewrite upd3_get. destruct b; try reflexivity; exfalso; apply Rb, Nc; reflexivity.
      + eapply st_ext; [eassumption|]. intros b _ Rb. rewrite F2 in Rb. rewrite upd3_get. destruct b; try reflexivity; exfalso; apply Rb, Nc; reflexivity. }
  destruct T as (mnf & mxf & E & V1 & V2). rewrite E. exists mnf, mxf. split; [reflexivity|]. split.
  - eapply st_ext; [exact V1|]. intros b Nb _. rewrite upd3_get. destruct b; try congruence; reflexivity.
  - eapply st_ext; [exact V2|]. intros b Nb _. rewrite upd3_get. destruct b; try congruence; reflexivity.
Qed.

(** ** order of doubles *)
From Flocq Require Import Binary Bits.
From Verif Require Import Float64_Proofs.
Lemma f64_lt_trans x y z : f64_lt x y = true -> f64_lt y z = true -> f64_lt x z = true.
Proof.
  destruct (f64_fin x) eqn:Fx, (f64_fin y) eqn:Fy, (f64_fin z) eqn:Fz.
  1: { rewrite !f64_lt_R by assumption. intros. eapply Raxioms.Rlt_trans; eassumption. }
  all: clear - Fx Fy Fz; unfold f64_lt, b64_compare, Bcompare, f64_fin in *;
    destruct x as [sx|sx|sx px ex|sx mx ex bx], y as [sy|sy|sy py ey|sy my ey by0], z as [sz|sz|sz pz ez|sz mz ez bz]; cbn in *; try discriminate;
    try destruct sx; try destruct sy; try destruct sz; cbn; congruence.
Qed.
Lemma f64_lt_irrefl x : f64_lt x x = false.
Proof.
  destruct (f64_fin x) eqn:Fx.
  - destruct (f64_lt x x) eqn:E; [|reflexivity]. apply f64_lt_R in E; auto. exfalso. revert E. apply RIneq.Rlt_irrefl.
  - destruct x as [s|[|]|s p e|s m e b]; cbn in *; try discriminate; reflexivity.
Qed.

Lemma least_snoc vs v m : least vs m -> least (vs ++ [v]) (Z.min v m).
Proof.
  intros (I & L). split.
  - apply in_app_iff. destruct (Z.min_spec v m) as [(_ & ->)|(_ & ->)]; [right; now left|now left].
  - intros w Hw. apply in_app_iff in Hw as [Hw|[<-|[]]]; [specialize (L w Hw)|]; lia.
Qed.
Lemma greatest_snoc vs v m : greatest vs m -> greatest (vs ++ [v]) (Z.max v m).
Proof.
  intros (I & L). split.
  - apply in_app_iff. destruct (Z.max_spec v m) as [(_ & ->)|(_ & ->)]; [now left|right; now left].
  - intros w Hw. apply in_app_iff in Hw as [Hw|[<-|[]]]; [specialize (L w Hw)|]; lia.
Qed.
Lemma least_f_snoc vs v m : least_f vs m -> least_f (vs ++ [v]) (if f64_lt v m then v else m).
Proof.
  intros (I & L). destruct (f64_lt v m) eqn:E; split; try (apply in_app_iff; cbn; tauto).
  - intros w Hw. apply in_app_iff in Hw as [Hw|[<-|[]]]; [|apply f64_lt_irrefl].
    destruct (f64_lt w v) eqn:E2; [|reflexivity]. rewrite <- (L w Hw). symmetry. now apply (f64_lt_trans w v m).
  - intros w Hw. apply in_app_iff in Hw as [Hw|[<-|[]]]; auto.
Qed.
Lemma greatest_f_snoc vs v m : greatest_f vs m -> greatest_f (vs ++ [v]) (if f64_lt m v then v else m).
Proof.
  intros (I & L). destruct (f64_lt m v) eqn:E; split; try (apply in_app_iff; cbn; tauto).
  - intros w Hw. apply in_app_iff in Hw as [Hw|[<-|[]]]; [|apply f64_lt_irrefl].
    destruct (f64_lt v w) eqn:E2; [|reflexivity]. rewrite <- (L w Hw). symmetry. now apply (f64_lt_trans m v w).
  - intros w Hw. apply in_app_iff in Hw as [Hw|[<-|[]]]; auto.
Qed.

(** Extremes of the values of [ps]. *)
Definition lows (fmt : Z) (ps : list point) (lo : attr -> Z) : Prop :=
  (forall a, plain a = true \/ (is_color a = true /\ attr_range fmt a <> None) -> least (map (fun p => view_of p a) ps) (lo a)) /\
  least (map (fun p => class_get (view_of p AClassification)) ps) (class_get (lo AClassification)) /\
  (attr_range fmt ATime <> None -> least_f (map (fun p => fb (view_of p ATime)) ps) (fb (lo ATime))).
Definition highs (fmt : Z) (ps : list point) (hi : attr -> Z) : Prop :=
  (forall a, plain a = true \/ (is_color a = true /\ attr_range fmt a <> None) -> greatest (map (fun p => view_of p a) ps) (hi a)) /\
  greatest (map (fun p => class_get (view_of p AClassification)) ps) (class_get (hi AClassification)) /\
  (attr_range fmt ATime <> None -> greatest_f (map (fun p => fb (view_of p ATime)) ps) (fb (hi ATime))).

Lemma lows_snoc fmt ps p lo : lows fmt ps lo -> lows fmt (ps ++ [p]) (lowf (view_of p) lo).
Proof.
  intros (L1 & L2 & L3). unfold lows. rewrite !map_app. cbn [map]. split; [|split].
  - intros a Ha. pose proof (least_snoc _ (view_of p a) _ (L1 a Ha)) as L. rewrite map_app. cbn [map].
    destruct a; try exact L; cbn in Ha; destruct Ha as [Ha|(Ha & _)]; discriminate.
  - cbn [lowf]. pose proof (least_snoc _ (class_get (view_of p AClassification)) _ L2) as L. unfold class_min.
    destruct (Z.ltb_spec (class_get (view_of p AClassification)) (class_get (lo AClassification))).
    + rewrite (class_get_small (class_get (view_of p AClassification))) by apply class_get_range. rewrite Z.min_l in L by lia. exact L.
    + rewrite Z.min_r in L by lia. exact L.
  - intros R. cbn [lowf]. pose proof (least_f_snoc _ (fb (view_of p ATime)) _ (L3 R)) as L. unfold time_min.
    destruct (f64_lt _ _); exact L.
Qed.
Lemma highs_snoc fmt ps p hi : highs fmt ps hi -> highs fmt (ps ++ [p]) (highf (view_of p) hi).
Proof.
  intros (L1 & L2 & L3). unfold highs. rewrite !map_app. cbn [map]. split; [|split].
  - intros a Ha. pose proof (greatest_snoc _ (view_of p a) _ (L1 a Ha)) as L. rewrite map_app. cbn [map].
    destruct a; try exact L; cbn in Ha; destruct Ha as [Ha|(Ha & _)]; discriminate.
  - cbn [highf]. pose proof (greatest_snoc _ (class_get (view_of p AClassification)) _ L2) as L. unfold class_max.
    destruct (Z.ltb_spec (class_get (hi AClassification)) (class_get (view_of p AClassification))).
    + rewrite (class_get_small (class_get (view_of p AClassification))) by apply class_get_range. rewrite Z.max_l in L by lia. exact L.
    + rewrite Z.max_r in L by lia. exact L.
  - intros R. cbn [highf]. pose proof (greatest_f_snoc _ (fb (view_of p ATime)) _ (L3 R)) as L. unfold time_max.
    destruct (f64_lt _ _); exact L.
Qed.
Lemma lows_one fmt p : lows fmt [p] (lowf (view_of p) (view_of p)).
Proof.
  split; [|split].
  - intros a Ha. cbn [map]. assert (E : lowf (view_of p) (view_of p) a = view_of p a).
    { destruct a; cbn [lowf]; try apply Z.min_id; destruct Ha as [Ha|(Ha & _)]; discriminate. }
    rewrite E. split; [now left|]. intros v [<-|[]]. lia.
  - cbn [map lowf]. unfold class_min. rewrite Z.ltb_irrefl. split; [now left|]. intros v [<-|[]]. lia.
  - intros _. cbn [map lowf]. unfold time_min. rewrite f64_lt_irrefl. split; [now left|]. intros v [<-|[]]. apply f64_lt_irrefl.
Qed.
Lemma highs_one fmt p : highs fmt [p] (highf (view_of p) (view_of p)).
Proof.
  split; [|split].
  - intros a Ha. cbn [map]. assert (E : highf (view_of p) (view_of p) a = view_of p a).
    { destruct a; cbn [highf]; try apply Z.max_id; destruct Ha as [Ha|(Ha & _)]; discriminate. }
    rewrite E. split; [now left|]. intros v [<-|[]]. lia.
  - cbn [map highf]. unfold class_max. rewrite Z.ltb_irrefl. split; [now left|]. intros v [<-|[]]. lia.
  - intros _. cbn [map highf]. unfold time_max. rewrite f64_lt_irrefl. split; [now left|]. intros v [<-|[]]. apply f64_lt_irrefl.
Qed.

(** ** counters *)
Definition tally (n : nat) (vs : list Z) (l : list Z) : Prop :=
  length l = n /\ forall k, 0 <= k < Z.of_nat n -> nth (Z.to_nat k) l 0 = number_of (Z.eqb k) vs mod 2 ^ 32.
Lemma number_snoc {V} (f : V -> bool) vs v : number_of f (vs ++ [v]) = number_of f vs + (if f v then 1 else 0).
Proof. unfold number_of. rewrite filter_app, app_length. cbn [filter]. destruct (f v); cbn [List.length]; lia. Qed.
Lemma incr_mod n : incr (n mod 2 ^ 32) = (n + 1) mod 2 ^ 32.
Proof. unfold incr. rewrite Z.add_mod_idemp_l by lia. reflexivity. Qed.
Lemma nth_list_set {A} (l : list A) : forall i k x d, (i < length l)%nat -> nth k (list_set l i x) d = if Nat.eqb k i then x else nth k l d.
Proof.
  induction l as [|y l IH]; intros i k x d H; [cbn in H; lia|]. destruct i, k; cbn [list_set nth Nat.eqb]; try reflexivity.
  apply IH. cbn in H. lia.
Qed.
Lemma length_list_set {A} (l : list A) : forall i x, length (list_set l i x) = length l.
Proof. induction l as [|y l IH]; intros [|i] x; cbn [list_set List.length]; auto. Qed.
Lemma tally_snoc n vs l v : tally n vs l -> 0 <= v < Z.of_nat n -> exists l', incr_at l v = Ok l' /\ tally n (vs ++ [v]) l'.
Proof.
  intros (L & T) B. unfold incr_at. destruct (nth_error l (Z.to_nat v)) as [x|] eqn:E.
  2:{ apply nth_error_None in E. lia. }
  eexists. split; [reflexivity|]. split; [now rewrite length_list_set|]. intros k Hk.
  rewrite nth_list_set by lia. rewrite number_snoc. apply (nth_error_nth _ _ 0) in E.
  destruct (Nat.eqb_spec (Z.to_nat k) (Z.to_nat v)).
  - assert (k = v) by lia. subst k. rewrite Z.eqb_refl. rewrite <- E, T by lia. apply incr_mod.
  - destruct (Z.eqb_spec k v); [lia|]. rewrite Z.add_0_r. apply T. lia.
Qed.
Lemma nth_repeat_0 k n : nth k (repeat 0 n) 0 = 0.
Proof. revert k. induction n as [|n IH]; intros [|k]; cbn; auto. Qed.
Lemma tally_nil n : tally n [] (repeat 0 n).
Proof. split; [apply repeat_length|]. intros k _. rewrite nth_repeat_0. reflexivity. Qed.
Lemma count_snoc {V} (f : V -> bool) vs v n : n = number_of f vs mod 2 ^ 32 -> (if f v then incr n else n) = number_of f (vs ++ [v]) mod 2 ^ 32.
Proof. intros ->. rewrite number_snoc. destruct (f v); [apply incr_mod|now rewrite Z.add_0_r]. Qed.

(** ** the whole *)
Definition vw (a : attr) (ps : list point) : list Z := map (fun p => view_of p a) ps.
Definition counts (u : summary) (ps : list point) : Prop :=
  u_count u = Z.of_nat (length ps) mod 2 ^ 32 /\
  tally 32 (map class_get (vw AClassification ps)) (u_classes u) /\
  u_synthetic u = number_of class_is_synthetic (vw AClassification ps) mod 2 ^ 32 /\
  u_withheld u = number_of class_is_withheld (vw AClassification ps) mod 2 ^ 32 /\
  u_keypoint u = number_of class_is_keypoint (vw AClassification ps) mod 2 ^ 32 /\
  tally 8 (vw AReturnNumber ps) (u_returns u) /\ tally 8 (vw ANumberOfReturns ps) (u_pulses u).
Definition inv (fmt : Z) (u : summary) (ps : list point) : Prop :=
  counts u ps /\ u_first u = false /\
  (u_have_time u = true <-> attr_range fmt ATime <> None) /\ (u_have_color u = true <-> attr_range fmt ARed <> None) /\
  exists q0 r0 mn mx lo hi, p_format q0 = fmt /\ p_format r0 = fmt /\ u_min u = Some mn /\ u_max u = Some mx /\
    st q0 mn lo /\ st r0 mx hi /\ lows fmt ps lo /\ highs fmt ps hi.

Lemma vw_get p a : point_wf p -> attr_range 0 a <> None -> api_get a p = Ok (view_of p a).
Proof.
  intros W R. assert (attr_range (p_format p) a <> None) by (destruct a; cbn in *; congruence).
  destruct (wf_api_get p a W H) as (? & ? & ? & _ & E & _). exact E.
Qed.
Lemma small_field p a k : point_wf p -> In (a, k) [(AReturnNumber, 8); (ANumberOfReturns, 8)] -> 0 <= view_of p a < k.
Proof.
  intros W Hin. destruct (wf_api_get p a W) as (s & w & sg & R & _ & F); [destruct Hin as [E|[E|[]]]; injection E as <- <-; discriminate|].
  destruct Hin as [E|[E|[]]]; injection E as <- <-; cbn in R; injection R as <- <- <-; cbn [value_fits] in F; unfold in_unsigned in F; change (2 ^ 3) with 8 in F; exact F.
Qed.

Lemma add_eq u p f mn0 mx0 hdr hc ht mn1 mx1 classes returns pulses : point_wf p ->
  (if u_first u then first_point u p
   else match u_min u, u_max u with
        | Some mn, Some mx => Ok (mn, mx, u_header u, u_have_color u, u_have_time u)
        | _, _ => UB UBNull end) = Ok f -> f = (mn0, mx0, hdr, hc, ht) ->
  minmax ht hc p (mn0, mx0) = Ok (mn1, mx1) ->
  incr_at (u_classes u) (class_get (view_of p AClassification)) = Ok classes ->
  incr_at (u_returns u) (view_of p AReturnNumber) = Ok returns ->
  incr_at (u_pulses u) (view_of p ANumberOfReturns) = Ok pulses ->
  let c := view_of p AClassification in
  summary_add u p = Ok (mkSummary classes
        (if class_is_synthetic c then incr (u_synthetic u) else u_synthetic u)
        (if class_is_withheld c then incr (u_withheld u) else u_withheld u)
        (if class_is_keypoint c then incr (u_keypoint u) else u_keypoint u)
        (incr (u_count u)) returns pulses false (Some mn1) (Some mx1) hdr (u_have_header u) hc ht).
Proof.
  intros W F Ef M I1 I2 I3 c. unfold summary_add. rewrite F. cbn [obind]. subst f. cbv beta iota.
  unfold minmax in M.
  do 12 (apply obind_ok in M as (?mm & ?E & M); match goal with H : ?X = Ok _ |- context [obind ?X _] => rewrite H; cbn [obind] end).
  pose proof (vw_get p AClassification W ltac:(discriminate)) as G1. pose proof (vw_get p AReturnNumber W ltac:(discriminate)) as G2.
  pose proof (vw_get p ANumberOfReturns W ltac:(discriminate)) as G3. cbn [api_get] in G1, G2, G3. fold c in G1. rewrite G1. cbn [obind].
  fold c in I1. rewrite I1. cbn [obind]. apply obind_ok in M as (mm' & E' & M). rewrite E'. cbn [obind]. rewrite M. cbn [obind].
  rewrite G2. cbn [obind]. rewrite I2. cbn [obind]. rewrite G3. cbn [obind]. rewrite I3. reflexivity.
Qed.

Lemma counts_snoc u p ps classes returns pulses hdr mn mx hh hc ht fi :
  counts u ps -> tally 32 (map class_get (vw AClassification ps) ++ [class_get (view_of p AClassification)]) classes ->
  tally 8 (vw AReturnNumber ps ++ [view_of p AReturnNumber]) returns -> tally 8 (vw ANumberOfReturns ps ++ [view_of p ANumberOfReturns]) pulses ->
  let c := view_of p AClassification in
  counts (mkSummary classes
        (if class_is_synthetic c then incr (u_synthetic u) else u_synthetic u)
        (if class_is_withheld c then incr (u_withheld u) else u_withheld u)
        (if class_is_keypoint c then incr (u_keypoint u) else u_keypoint u)
        (incr (u_count u)) returns pulses fi mn mx hdr hh hc ht) (ps ++ [p]).
Proof.
  intros (C1 & C2 & C3 & C4 & C5 & C6 & C7) T1 T2 T3 c. unfold counts, vw. rewrite !map_app, app_length. cbn [map List.length u_count u_classes u_synthetic u_withheld u_keypoint u_returns u_pulses].
  split; [rewrite C1, incr_mod; f_equal; lia|]. split; [exact T1|].
  split; [now apply count_snoc|]. split; [now apply count_snoc|]. split; [now apply count_snoc|]. split; [exact T2|exact T3].
Qed.

Lemma add_later fmt u ps p : inv fmt u ps -> usual_point fmt p -> exists u', summary_add u p = Ok u' /\ inv fmt u' (ps ++ [p]).
Proof.
  intros (C & Fi & Ht & Hc & q0 & r0 & mn & mx & lo & hi & F1 & F2 & E1 & E2 & S1 & S2 & L & H) (W & Fp & _).
  destruct (minmax_st (u_have_time u) (u_have_color u) p q0 mn lo r0 mx hi W S1 S2) as (mn' & mx' & M & S1' & S2'); try congruence; [rewrite Fp; assumption ..|].
  pose proof C as (_ & T1 & _ & _ & _ & T2 & T3).
  destruct (tally_snoc _ _ _ (class_get (view_of p AClassification)) T1) as (cl & I1 & T1'); [apply class_get_range|].
  destruct (tally_snoc _ _ _ (view_of p AReturnNumber) T2) as (rt & I2 & T2'); [apply small_field; [exact W|cbn; auto]|].
  destruct (tally_snoc _ _ _ (view_of p ANumberOfReturns) T3) as (pu & I3 & T3'); [apply small_field; [exact W|cbn; auto]|].
  eexists. split.
  - eapply add_eq; [exact W|rewrite Fi, E1, E2; reflexivity|reflexivity|exact M|exact I1|exact I2|exact I3].
  - split; [|split; [|split; [|split]]].
    + apply counts_snoc; assumption.
    + reflexivity.
    + exact Ht.
    + exact Hc.
    + exists q0, r0, mn', mx', (lowf (view_of p) lo), (highf (view_of p) hi). split; [exact F1|]. split; [exact F2|]. split; [reflexivity|]. split; [reflexivity|].
      split; [exact S1'|]. split; [exact S2'|]. split; [now apply lows_snoc|now apply highs_snoc].
Qed.

Lemma agrees_data p q : p_data p = p_data q -> p_format p = p_format q -> agrees p (view_of q) <-> agrees q (view_of q).
Proof.
  intros D F. assert (G : forall a, api_get a p = api_get a q).
  { intros a. destruct p as [d h], q as [d' h']. unfold p_format in F. cbn [p_data p_hdr] in *. subst d'.
    destruct a; try reflexivity; cbn [api_get]; unfold get_time, get_color, p_format; cbn [p_hdr p_data]; rewrite F; reflexivity. }
  unfold agrees. rewrite F. split; intros A a Ha; rewrite <- (A a Ha); auto. 
Qed.

Lemma format_change h fmt : 0 <= fmt <= 3 -> exists h', set_header_format h fmt = (h', Ok tt).
Proof.
  intros F. unfold set_header_format, Schema_Model.set_format, Schema_Model.update_required. assert (E : fmt = 0 \/ fmt = 1 \/ fmt = 2 \/ fmt = 3) by lia.
  destruct E as [->|[->|[->| ->]]]; eexists; reflexivity.
Qed.

Lemma fitting_move h p : point_wf p -> fitting_header h p -> set_header p h = Ok (mkPoint (p_data p) h).
Proof.
  intros (_ & B & _) (F & L & D). rewrite set_header_eq. destruct (Z.eqb_spec (zsum (p_data p)) 0) as [Z0|Z0].
  - apply (zsum_zero _ B) in Z0. unfold point_new. do 2 f_equal. rewrite Z0 at 1. rewrite L, Nat2Z.id. reflexivity.
  - rewrite L, Z.eqb_refl. cbn [negb obind]. rewrite D. reflexivity.
Qed.

Lemma add_first fmt u p : counts u [] -> u_first u = true -> usual_point fmt p ->
  (u_have_header u = true -> fitting_header (u_header u) p) ->
  exists u', summary_add u p = Ok u' /\ inv fmt u' [p].
Proof.
  intros C Fi (W & Fp & HT & HC) Hh.
  assert (FP : exists q h2, p_data q = p_data p /\ p_format q = fmt /\
    first_point u p = Ok (q, q, h2, has_dim (p_hdr p) "Red" && has_dim (p_hdr p) "Green" && has_dim (p_hdr p) "Blue", has_dim (p_hdr p) "Time")).
  { unfold first_point. destruct (h_scale (p_hdr p)) as [[sx sy] sz]. destruct (h_offset (p_hdr p)) as [[ox oy] oz].
    set (h1 := set_offset (set_scale (u_header u) sx sy sz) ox oy oz).
    assert (G1 : get_format h1 = get_format (u_header u)) by reflexivity.
    destruct (u_have_header u) eqn:HH.
    - specialize (Hh eq_refl). rewrite (fitting_move _ _ W Hh). cbn [obind]. destruct Hh as (Ff & _ & _).
      rewrite G1, Ff. fold (p_format p). rewrite Z.eqb_refl. cbn [negb obind]. eexists _, _. split; [|split; [|reflexivity]]; [reflexivity|].
      unfold p_format. cbn [p_hdr]. rewrite G1, Ff. exact Fp.
    - cbn [obind]. destruct (negb (get_format h1 =? get_format (p_hdr p))).
      + destruct (format_change h1 (get_format (p_hdr p))) as (h' & E); [fold (p_format p); apply W|]. rewrite E. cbn [obind].
        exists p, h'. auto.
      + cbn [obind]. exists p, h1. auto. }
  destruct FP as (q & h2 & D & Fq & FP).
  assert (Wq : point_wf q) by (destruct W as (W1 & W2 & W3); unfold point_wf; rewrite D, Fq, <- Fp; auto).
  assert (Sq : st q q (view_of p)).
  { apply st_refl; [exact Wq|]. apply agrees_data; [exact D|congruence|]. now apply view_agrees. }
  destruct (minmax_st _ _ p q q (view_of p) q q (view_of p) W Sq Sq ltac:(congruence) ltac:(congruence)
    ltac:(rewrite Fp; exact HT) ltac:(rewrite Fp; exact HC)) as (mn' & mx' & M & S1' & S2').
  pose proof C as (_ & T1 & _ & _ & _ & T2 & T3).
  destruct (tally_snoc _ _ _ (class_get (view_of p AClassification)) T1) as (cl & I1 & T1'); [apply class_get_range|].
  destruct (tally_snoc _ _ _ (view_of p AReturnNumber) T2) as (rt & I2 & T2'); [apply small_field; [exact W|cbn; auto]|].
  destruct (tally_snoc _ _ _ (view_of p ANumberOfReturns) T3) as (pu & I3 & T3'); [apply small_field; [exact W|cbn; auto]|].
  eexists. split.
  - eapply add_eq; [exact W|rewrite Fi; exact FP|reflexivity|exact M|exact I1|exact I2|exact I3].
  - split; [|split; [|split; [|split]]].
    + change [p] with ([] ++ [p]). apply counts_snoc; assumption.
    + reflexivity.
    + exact HT.
    + exact HC.
    + exists q, q, mn', mx', (lowf (view_of p) (view_of p)), (highf (view_of p) (view_of p)). split; [exact Fq|]. split; [exact Fq|]. split; [reflexivity|]. split; [reflexivity|].
      split; [exact S1'|]. split; [exact S2'|]. split; [apply lows_one|apply highs_one].
Qed.

Lemma feed_later fmt ps' : forall u ps, inv fmt u ps -> Forall (usual_point fmt) ps' ->
  exists u', summary_feed u ps' = Ok u' /\ inv fmt u' (ps ++ ps').
Proof.
  induction ps' as [|p ps' IH]; intros u ps I F.
  - exists u. rewrite app_nil_r. auto.
  - inversion F as [|? ? F1 F2]; subst. destruct (add_later fmt u ps p I F1) as (u1 & E & I1). cbn [summary_feed]. rewrite E. cbn [obind].
    destruct (IH u1 (ps ++ [p]) I1 F2) as (u2 & E2 & I2). exists u2. rewrite <- app_assoc in I2. auto.
Qed.
Lemma feed_all fmt u p ps : counts u [] -> u_first u = true -> Forall (usual_point fmt) (p :: ps) ->
  (u_have_header u = true -> fitting_header (u_header u) p) ->
  exists u', summary_feed u (p :: ps) = Ok u' /\ inv fmt u' (p :: ps).
Proof.
  intros C Fi F Hh. inversion F as [|? ? F1 F2]; subst. destruct (add_first fmt u p C Fi F1 Hh) as (u1 & E & I1).
  cbn [summary_feed]. rewrite E. cbn [obind]. exact (feed_later fmt ps u1 [p] I1 F2).
Qed.
Lemma new_counts h : counts (summary_new h) [].
Proof. repeat split; try apply (tally_nil 32); try apply (tally_nil 8). Qed.
Lemma new_header_counts h h' : counts (summary_set_header (summary_new h) h') [].
Proof. exact (new_counts h). Qed.

(** report lists *)
Lemma nonzero_from_spec l : forall i0 i n, In (i, n) (nonzero_from i0 l) <-> i0 <= i < i0 + Z.of_nat (length l) /\ n = nth (Z.to_nat (i - i0)) l 0 /\ n <> 0.
Proof.
  induction l as [|x l IH]; intros i0 i n; cbn [nonzero_from List.length].
  - cbn. split; [tauto|lia].
  - assert (K : In (i, n) (nonzero_from (i0 + 1) l) <-> i0 < i < i0 + Z.of_nat (S (length l)) /\ n = nth (Z.to_nat (i - i0)) (x :: l) 0 /\ n <> 0).
    { rewrite IH. split; intros (B & E & N); (split; [lia|]); (split; [|exact N]); rewrite E; replace (Z.to_nat (i - i0)) with (S (Z.to_nat (i - (i0 + 1)))) by lia; reflexivity. }
    destruct (Z.eqb_spec x 0) as [->|Nx].
    + rewrite K. split; intros (B & E & N); (split; [|auto]); [lia|]. destruct (Z.eq_dec i i0) as [->|]; [|lia].
      rewrite Z.sub_diag in E. cbn in E. congruence.
    + cbn [In]. rewrite K. split.
      * intros [E|(B & E & N)]; [injection E as <- <-|split; [lia|auto]]. split; [lia|]. rewrite Z.sub_diag. auto.
      * intros (B & E & N). destruct (Z.eq_dec i i0) as [->|]; [left; rewrite Z.sub_diag in E; cbn in E; congruence|right; split; [lia|auto]].
Qed.

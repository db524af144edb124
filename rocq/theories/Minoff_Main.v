(** las2las --min-offset: the whole run. *)
From Coq Require Import ZArith List Bool Lia Lra String Reals.
From Coq Require Import ZifyBool ZifyNat.
Import ListNotations.
From Flocq Require Import Core.
From Verif Require Import Outcome Bytes Float64 Float64_Proofs CStr Vlr_Model Schema_Model Schema_Spec Schema_Api Schema_Proofs Header_Model Point_Model Point_Spec Point_Api Point_Proofs Coord_Api Coord_Proofs Coord_Header Stream_Model Stream_Proofs
  IO_Spec Reader_Proofs Reader_Vlrs Reader_Model Reader_Spec Reader_Schema Reader_Api Reader_Open Reader_Hist Reader_Filter Writer_Model Writer_Api Writer_Proofs Writer_File
  Writer_Append IO_Samples Prop_Reader Iter_Spec Iter_Model Iter_Proofs Rewrite_Proofs Rewrite_Gap Rewrite_Read Prop_Rewrite Summary_Model Summary_Spec Summary_Proofs Prop_Summary Text_Model Text_Proofs
  Las2las_Spec Las2las_Copy Las2las_Model Las2las_Summary Las2las_File Las2las_Loop Las2las_Points Las2las_Main Las2las_Split Prop_Las2las
  Cli_Model Cli_Spec Cli_Proofs Hdropt_Model Hdropt_Spec Hdropt_Write Hdropt_Proofs Hdropt_Main
  Cols_Spec Cols_Proofs Txt_Spec Lasinfo_Spec Lasinfo_Model Lasinfo_Proofs Lasinfo_Main Minoff_Spec Minoff_Model Minoff_Proofs Minoff_Move.
Local Open Scope Z_scope.
Local Notation length := List.length (only parsing).

(** ** The header with the new offsets, as an edit *)
Definition one_two_three (o : f64 * f64 * f64) (s : text) : f64 :=
  match s with [49] => x_of o | [50] => y_of o | _ => z_of o end.
Definition offset_opts : hopts := mkHopts (Some [49; 32; 50; 32; 51]) None None None None None false None None None None.
Lemma word_digit d : 49 <= d <= 51 -> word [d].
Proof.
  intros D. split; [discriminate|]. split.
  - unfold str. cbn. discriminate.
  - constructor; [|constructor]. unfold separators. cbn [In]. lia.
Qed.
Lemma offset_typed t o : typed_as (one_two_three o) (fun _ => None) t (offset_only o) offset_opts.
Proof.
  unfold typed_as, offset_only, offset_opts. cbn [c_offset c_scale c_minor c_format c_date c_vlr c_software c_system a_offset a_scale a_file_format a_point_format a_pad a_creation a_add_schema a_delete_vlr a_add_vlr a_software a_system both].
  split; [|repeat (split; [first [exact I|reflexivity]|]); reflexivity].
  exists [49], [50], [51], 32, 32. split; [apply word_digit; lia|]. split; [apply word_digit; lia|]. split; [apply word_digit; lia|].
  split; [unfold separators; cbn [In]; lia|]. split; [unfold separators; cbn [In]; lia|]. split; [reflexivity|]. destruct o as [[x y] z]. reflexivity.
Qed.
Lemma offset_after o h : after (offset_only o) h (h_schema h) (h_nvlr h) = h_upd_offset h o.
Proof.
  unfold after, offset_only, added. cbn [c_offset c_scale c_minor c_format c_date c_vlr c_software c_system or_else option_map]. rewrite app_nil_r.
  destruct h. reflexivity.
Qed.
Lemma offset_doable F o : changeable F no_change -> (forall ax, f64_fin (axis_of o ax) = true) -> doable F (offset_only o).
Proof.
  intros ((TR & _ & CS & CV & CB & C0) & _) Fo. split; [exact TR|]. split.
  { cbn [offset_only c_offset when]. split; [exact (Fo AxX)|]. split; [exact (Fo AxY)|exact (Fo AxZ)]. }
  split; [exact I|]. split; [constructor|]. split; [exact CB|exact C0].
Qed.

Lemma bounds_file F h ds mx mn : sane_scaling F -> Forall (of_file F h) ds -> bounds_of (points_of h ds) mx mn -> bounds_at F ds mx mn.
Proof.
  intros SS OF B ax. destruct (B ax) as (lo & lo' & hi & hi' & ((p & Ip & Ep) & L) & ((q & Iq & Eq) & Gr) & T). exists lo, lo', hi, hi'.
  rewrite Forall_forall in OF. unfold points_of in *. apply in_map_iff in Ip, Iq. destruct Ip as (d & <- & Id). destruct Iq as (e & <- & Ie).
  rewrite (coord_is F h d ax (OF _ Id)) in Ep. rewrite (coord_is F h e ax (OF _ Ie)) in Eq. apply Writer_Append.Ok_inj in Ep, Eq. subst lo hi.
  assert (FIN : forall x, In x ds -> f64_fin (coordinate F ax x) = true) by (intros x Ix; apply (coordinate_fin F h SS x ax (OF _ Ix))).
  split; [|split; [|exact T]]; (split; [now apply in_map|]); intros v Hv; apply in_map_iff in Hv; destruct Hv as (x & <- & Ix); apply le_not_lt; auto.
  - apply (L (mkPoint x h)); [now apply (in_map (fun d => mkPoint d h))|apply (coord_is F h x ax (OF _ Ix))].
  - apply (Gr (mkPoint x h)); [now apply (in_map (fun d => mkPoint d h))|apply (coord_is F h x ax (OF _ Ix))].
Qed.

Lemma moves_list (Q : list Z -> list Z -> Prop) h h2 ds : Forall (fun d => exists d', set_header (mkPoint d h) h2 = Ok (mkPoint d' h2) /\ Q d d') ds ->
  exists ds', Forall2 (fun p p' => set_header p h2 = Ok p') (points_of h ds) (points_of h2 ds') /\ Forall2 Q ds ds' /\ length ds' = length ds.
Proof.
  unfold points_of. induction 1 as [|d ds (d' & E & X) _ (ds' & A & B & C)]; [exists []; split; [constructor|split; [constructor|reflexivity]]|].
  exists (d' :: ds'). cbn [map List.length]. split; [constructor; [exact E|exact A]|]. split; [constructor; [exact X|exact B]|congruence].
Qed.
Lemma Forall2_and {A B} (P Q : A -> B -> Prop) l l' : Forall2 (fun a b => P a b /\ Q a b) l l' -> Forall2 Q l l'.
Proof. induction 1 as [|? ? ? ? (_ & X)]; constructor; auto. Qed.

Lemma axes_offset F o : u_at F 155 8 = f64_bits (x_of o) -> u_at F 163 8 = f64_bits (y_of o) -> u_at F 171 8 = f64_bits (z_of o) -> forall ax, file_offset F ax = axis_of o ax.
Proof.
  intros X Y W ax. unfold file_offset. destruct ax; cbn [place Nat.mul Nat.add axis_of]; [rewrite X|rewrite Y|rewrite W]; apply f64_of_bits_bits.
Qed.
Lemma axes_scale F G : ph_scale (pub_of_file G) = ph_scale (pub_of_file F) -> forall ax, file_scale G ax = file_scale F ax.
Proof.
  intros E ax. cbn [ph_scale pub_of_file] in E. unfold file_scale. f_equal. destruct ax; cbn [place Nat.mul Nat.add]; [exact (f_equal (fun x => fst (fst x)) E)|exact (f_equal (fun x => snd (fst x)) E)|exact (f_equal snd E)].
Qed.
Lemma offset_axes G o : ph_offset (pub_of_file G) = bits3 o -> forall ax, file_offset G ax = axis_of o ax.
Proof.
  intros E. cbn [ph_offset pub_of_file] in E. unfold bits3 in E. apply axes_offset; [exact (f_equal (fun x => fst (fst x)) E)|exact (f_equal (fun x => snd (fst x)) E)|exact (f_equal snd E)].
Qed.
Lemma lossy_offset p : ph_offset (lossy p) = ph_offset p. Proof. unfold lossy. destruct (_ =? _); reflexivity. Qed.
Lemma lossy_scale p : ph_scale (lossy p) = ph_scale p. Proof. unfold lossy. destruct (_ =? _); reflexivity. Qed.

Lemma min_part t F o h h1 ds : real_tool t -> changeable F no_change ->
  shows_file F h -> header_wf h -> h_vlrs h = file_vlrs F -> h_hsize h = u_at F 94 2 -> h_doff h = f_doff F -> (0 <= gap F -> h_pad h = gap F) ->
  shows_file F h1 -> recs_ok F ds -> ds <> [] -> (forall ax, f64_fin (axis_of o ax) = true) ->
  (forall ax, (Rabs (f64_R (axis_of o ax)) <= 1125899906842624 * Rabs (f64_R (file_scale F ax)))%R) ->
  (forall ax d, In d ds -> storable (file_scale F ax) (axis_of o ax) (coordinate F ax d)) -> clear_move F o ->
  let h2 := h_upd_offset h o in
  exists ps' w0 w q G G', writer_new (t_sv t) (os_open []) h2 = Ok w0 /\ Forall2 (fun p p' => set_header p h2 = Ok p') (points_of h1 ds) ps' /\
    Writer_Api.write_points w0 ps' = Ok w /\ cs_feed cs_new (points_of h1 ds) = Ok q /\ writer_close w = Ok G /\ repair_file t q G = Ok G' /\ offset_edited F o ds G'.
Proof.
  intros TT HC Sh HW Hv Hh Hd Hp Sh1 HD Nds FO BO ST CM. cbv zeta.
  pose proof (offset_doable F o HC FO) as DO. pose proof HC as (((HSt & HG & Hg1 & HSS) & _) & _). pose proof HSt as (HA & HP). pose proof HA as (HF & HN & FSc & HCm).
  pose proof Sh as (P & Pg & PC & PB & Psr & PI & PF). pose proof HP as (_ & _ & HL & _).
  assert (PI' : sinv 8 (h_schema h) (std_fields (u_at F 104 1))).
  { unfold layout_of, extra_fields in PI. unfold f_reclen in HL. rewrite <- HL, Z.eqb_refl, app_nil_r in PI. exact PI. }
  destruct (after_facts (one_two_three o) (fun _ => None) t F (offset_only o) offset_opts h (h_schema h) (h_nvlr h) (offset_typed t o) DO Sh HW Hv Hh Hd Hp)
    as (A1 & A2 & A3 & A4 & A5 & A6 & A7 & A8 & A9 & A10 & A11); [apply HW|exact PF|exists 8; exact PI'|].
  rewrite (offset_after o h) in *. set (h2 := h_upd_offset h o) in *.
  assert (GL : get_record_length h2 = f_reclen F) by exact A9.
  destruct (file_shows F h Sh) as (_ & SHh). 
  assert (SCh : forall ax, scale_of ax h2 = file_scale F ax) by (intros ax; apply (SHh ax)).
  assert (OFh : forall ax, Coord_Api.offset_of ax h2 = axis_of o ax) by (intros ax; reflexivity).
  assert (TO : target_ok h2).
  { intros ax. rewrite SCh, OFh. split; [apply (scaling_ax F HSS ax)|]. split; [apply FO|apply BO]. }
  assert (L2 : Coord_Api.layout_ok h2) by exact (file_layout F h HP Sh).
  assert (OF1 : Forall (of_file F h1) ds).
  { destruct HD as (D & _). eapply Forall_impl; [|exact D]. intros d (B & L). split; [apply (file_point F h1 d HP Sh1 B L)|now apply file_shows]. }
  assert (MV : Forall (fun d => exists d', set_header (mkPoint d h1) h2 = Ok (mkPoint d' h2) /\
    ((bytes_ok d' /\ Z.of_nat (length d') = f_reclen F) /\ forall G, (forall ax, file_scale G ax = file_scale F ax) -> (forall ax, file_offset G ax = Coord_Api.offset_of ax h2) -> moved F G d d')) ds).
  { rewrite Forall_forall. intros d Hd'. destruct HD as (D & _). rewrite Forall_forall in D. destruct (D d Hd') as (B & L).
    destruct (record_moved F h1 h2 HP HSS Sh1 L2 GL PF TO SCh) with (d := d) as (d' & E & B' & L' & M); [|exact B|exact L| |].
    - destruct CM as [C|C]; [left; intros ax; rewrite OFh; apply C|right; exact C].
    - intros ax. rewrite OFh. now apply ST.
    - exists d'. split; [exact E|]. split; [split; [exact B'|lia]|exact M]. }
  destruct (moves_list _ h1 h2 ds MV) as (ds' & F1 & F2 & LD). set (ps' := points_of h2 ds') in *.
  assert (LP : length ps' = length ds) by (unfold ps'; now rewrite points_len).
  assert (D' : Forall (fun d => bytes_ok d /\ Z.of_nat (length d) = f_reclen F) ds').
  { clear - F2. induction F2 as [|d d' l l' (X & _) _ IH]; constructor; auto. }
  assert (PF' : Forall (fun p => point_fits (get_record_length h2) p /\ bytes_ok (p_data p)) ps').
  { unfold ps', points_of. apply Forall_map. eapply Forall_impl; [|exact D']. intros d (B & L). cbn [p_data]. split; [|exact B]. unfold point_fits. cbn [p_data].
    rewrite GL. split; [lia|]. intros ->. cbn [List.length] in L. destruct HCm as (C & _). lia. }
  destruct (session_file (t_sv t) h2 ps' A1 A2 A3 A4 A5 A6 A7) as (G & EW & PG & GU & V & SG & GA & RC); [rewrite A8; apply DO|exact PF'|rewrite LP; apply HD|].
  rewrite LP, A8, A10, geo_last_length, A11 in PG. fold (header_after F (offset_only o) (Z.of_nat (length ds))) in PG. rewrite A10 in V.
  assert (NG : f_npts G = Z.of_nat (length ds)) by (pose proof (f_equal ph_npts PG) as X; rewrite stored_npts in X; exact X).
  assert (RG : records_from G 0 = ds').
  { unfold records_from. rewrite NG, Z.sub_0_r, Nat2Z.id, <- LD. apply seq_records.
    intros k d Hk. assert (NP : nth_error ps' k = Some (mkPoint d h2)) by (unfold ps', points_of; now rewrite (map_nth_error _ _ _ Hk)).
    rewrite (RC _ _ NP). unfold record_of. cbn [p_data]. rewrite GL. rewrite Forall_forall in D'. destruct (D' d (nth_error_In _ _ Hk)) as (_ & L).
    apply firstn_all2. lia. }
  set (ps := points_of h1 ds) in *.
  pose proof (points_header F h1 ds HP Sh1 HD) as FOp. fold ps in FOp.
  destruct (cinv_feed h1 ps cs_new [] (cinv_new h1) FOp) as (q & EQ & IQ). cbn [app] in IQ.
  destruct (session_split _ _ _ _ EW) as (w0 & w & E0 & EP & EC).
  assert (LPs : length ps = length ds) by apply points_len.
  assert (LF : length (slice F 8 16) = 16%nat).
  { unfold slice. rewrite firstn_length, skipn_length. destruct HF as (_ & HLn & _). lia. }
  assert (GUh : h_guid h2 = slice F 8 16) by exact Pg.
  destruct (q_mm q) as [[mn mx]|] eqn:EM.
  2:{ exfalso. destruct IQ as (_ & _ & _ & M). rewrite EM in M. apply (f_equal (@List.length _)) in M. rewrite LPs in M. apply length_zero_iff_nil in M. contradiction. }
  destruct (corners h1 q ps mn mx (header_sane F h1 HF HSS Sh1) IQ FOp EM) as (x0 & y0 & z0 & x1 & y1 & z1 & T0 & T1 & BD).
  rewrite <- TT in T0, T1.
  destruct (repair_points t h1 q ps G mn mx x0 y0 z0 x1 y1 z1 SG) as (G' & ER & PR & GR & VR & SR & GaR & LR & RR); auto.
  { rewrite NG. destruct ds; [contradiction|cbn [List.length]; lia]. }
  exists ps', w0, w, q, G, G'. split; [exact E0|]. split; [exact F1|]. split; [exact EP|]. split; [exact EQ|]. split; [exact EC|]. split; [exact ER|].
  destruct (five_ok h1 ps FOp) as (rns & VR' & FR); [rewrite LPs; apply HD|].
  assert (RN : rns = map (field (fmt F) AReturnNumber) ds).
  { apply (values_unique get_return_number ps rns _ VR').
    apply (values_points F h1 get_return_number (field (fmt F) AReturnNumber) ds); [|exact OF1].
    intros d Od. apply (unsigned_value F h1 d Od AReturnNumber). eexists _, _. reflexivity. }
  assert (PUB : pub_of_file G' = lossy (with_returns (with_bounds (header_after F (offset_only o) (Z.of_nat (length ds))) (bits3 (x1, y1, z1)) (bits3 (x0, y0, z0))) (five_returns (map (field (fmt F) AReturnNumber) ds)))).
  { rewrite PR, FR, PG, stored_returns, lossy_stored, RN. reflexivity. }
  assert (OG : forall ax, file_offset G' ax = axis_of o ax).
  { apply offset_axes. rewrite PUB, lossy_offset. reflexivity. }
  assert (SGs : forall ax, file_scale G' ax = file_scale F ax).
  { apply axes_scale. rewrite PUB, lossy_scale. reflexivity. }
  split; [exact SR|]. split.
  { assert (N' : f_npts G' = f_npts G) by (pose proof (f_equal ph_npts PR) as X; rewrite stored_npts in X; exact X).
    assert (RG' : records_from G' 0 = ds').
    { rewrite <- RG. unfold records_from. rewrite N'. apply map_ext. intros i. apply RR. lia. }
    rewrite RG'. clear - F2 OG SGs OFh. induction F2 as [|d d' l l' (_ & X) _ IH]; constructor; auto. }
  split; [exact OG|]. split; [rewrite VR, V; unfold vlrs_after; cbn [added offset_only c_vlr]; now rewrite app_nil_r|].
  split; [rewrite GR, GU, GUh; now apply guid_swap_swap|].
  exists (bits3 (x1, y1, z1)), (bits3 (x0, y0, z0)). split; [now apply (bounds_file F h1 ds)|exact PUB].
Qed.

(** The options change the header as asked. *)
From Coq Require Import ZArith List Bool Lia String.
From Coq Require Import ZifyBool ZifyNat.
Import ListNotations.
From Verif Require Import Outcome Bytes Float64 Float64_Proofs CStr Vlr_Model Schema_Model Schema_Spec Schema_Api Schema_Proofs Header_Model Point_Model Stream_Model Stream_Proofs
  IO_Spec Reader_Proofs Reader_Vlrs Reader_Model Reader_Spec Reader_Schema Reader_Api Reader_Open Reader_Hist Writer_Model Writer_Api Writer_Proofs Writer_File
  Writer_Append IO_Samples Prop_Reader Iter_Spec Iter_Model Rewrite_Proofs Rewrite_Gap Rewrite_Read Prop_Rewrite Las2las_Spec Las2las_Model Las2las_File Prop_Las2las
  Cli_Model Cli_Spec Cli_Proofs Hdropt_Model Hdropt_Spec Hdropt_Write.
Local Open Scope Z_scope.
Local Notation length := List.length (only parsing).

Section Steps.
Variable atof : text -> f64.
Variable readraw : text -> option (list Z).
Variable t : tool.

Lemma edit_offset_ok c a h : both (offset_text atof) c a -> when_given a (edit_offset atof) h = Ok (h_upd_offset h (or_else c (h_offset h))).
Proof.
  destruct c as [v|], a as [s|]; cbn [both when_given or_else]; try tauto; [|intros _; destruct h; reflexivity].
  intros (a & b & c & s1 & s2 & (NA & MA & A) & (NB & MB & B) & (NC & MC & C) & S1 & S2 & -> & ->).
  assert (SEP : forall w, Forall (fun c => ~ In c separators) w -> Forall (fun c => existsb (Z.eqb c) separators = false) w).
  { intros w Hw. eapply Forall_impl; [|exact Hw]. intros x Hx. destruct (existsb _ _) eqn:E; [|reflexivity]. exfalso. apply existsb_exists in E. destruct E as (y & Hy & E). apply Z.eqb_eq in E. subst y. contradiction. }
  assert (IS : forall x, In x separators -> existsb (Z.eqb x) separators = true).
  { intros x Hx. apply existsb_exists. exists x. split; [exact Hx|apply Z.eqb_refl]. }
  assert (NM : forall w, w <> str "min" -> negb (zlist_eqb w (str "min")) = true).
  { intros w Hw. apply negb_true_iff. destruct (zlist_eqb w (str "min")) eqn:E; [|reflexivity]. apply zlist_eqb_spec in E. contradiction. }
  unfold edit_offset. rewrite (tokens_sep _ a s1) by auto. rewrite (tokens_sep _ b s2) by auto. rewrite (tokens_one _ c) by auto.
  cbn [filter]. rewrite !NM by assumption. reflexivity.
Qed.
Lemma edit_scale_ok c a h : both (fun v l => l = [x_of v; y_of v; z_of v]) c a -> when_given a edit_scale h = Ok (h_upd_scale h (or_else c (h_scale h))).
Proof.
  destruct c as [v|], a as [s|]; cbn [both when_given or_else]; try tauto; [|intros _; destruct h; reflexivity].
  intros ->. destruct v as [[x y] z]. reflexivity.
Qed.
Lemma edit_version_ok c a h : both version_text c a -> when_given a edit_file_format h = Ok (h_upd_vmin h (or_else c (h_vmin h))).
Proof.
  destruct c as [m|], a as [s|]; cbn [both when_given or_else]; try tauto; [|intros _; destruct h; reflexivity].
  intros (b & Hb & M & ->). destruct (numeral_chars b m Hb) as (N & P & C). unfold edit_file_format.
  change (str "1." ++ b) with ([49] ++ [46] ++ b). rewrite tokens_sep; [|discriminate|repeat constructor|reflexivity].
  rewrite tokens_one; [|exact N|eapply Forall_impl; [|exact C]; intros x Hx; cbv beta in Hx; cbn [existsb]; destruct (Z.eqb_spec x 46); [lia|reflexivity]].
  cbn [atois]. replace (atoi [49]) with (Ok 1) by reflexivity. cbn [obind]. rewrite (atoi_ok b m Hb) by lia. cbn [obind].
  destruct (Z.ltb_spec 2 m); [lia|]. rewrite Z.mod_small by lia. unfold set_version_minor, eVersionMinorMax. match goal with |- context [?a <? m] => destruct (Z.ltb_spec a m) end; [lia|reflexivity].
Qed.

Definition layout_now (k : Z) (s : schema) : Prop := sinv 9 s (std_fields k) /\ s_format s = k.
Lemma edit_format_ok c a h fmt : both (fun k n => n = k /\ 0 <= k <= 3) c a -> sinv 8 (h_schema h) (std_fields fmt) -> s_format (h_schema h) = fmt ->
  exists s, when_given a edit_point_format h = Ok (h_upd_schema h s) /\ s_format s = or_else c fmt /\ (exists k, sinv k s (std_fields (or_else c fmt))).
Proof.
  intros B I F. destruct c as [k|], a as [n|]; cbn [both when_given or_else] in *; try tauto.
  - destruct B as (-> & K). unfold edit_point_format. destruct (Z.ltb_spec 3 k); [lia|]. unfold set_header_format.
    destruct (set_fmt_sinv 8 (h_schema h) (std_fields fmt) k ltac:(lia) ltac:(lia) I K) as (s' & E & I' & F'). rewrite E. exists s'. split; [reflexivity|]. split; [exact F'|].
    exists (8 + 1). replace (custom_fields (std_fields fmt)) with (@nil field) in I'; [now rewrite app_nil_r in I'|].
    rewrite <- (app_nil_r (std_fields fmt)). now rewrite custom_of_prefix.
  - exists (h_schema h). split; [destruct h; reflexivity|]. split; [exact F|]. exists 8. exact I.
Qed.

Lemma edit_creation_ok c a h : both (date_text (t_doy t mod 2 ^ 16) (t_year t mod 2 ^ 16)) c a ->
  when_given a (edit_creation t) h = Ok (h_upd_year (h_upd_doy h (or_else (option_map fst c) (h_doy h))) (or_else (option_map snd c) (h_year h))) /\
  when c (fun d => in_unsigned 16 (fst d) /\ in_unsigned 16 (snd d)).
Proof.
  destruct c as [[d y]|], a as [l|]; cbn [both when_given or_else option_map when]; try tauto; [|intros _; destruct h; split; [reflexivity|exact I]].
  intros [(-> & E)|(a & b & A & B & D & Y & ->)].
  - apply (f_equal fst) in E as E1. apply (f_equal snd) in E as E2. cbn [fst snd] in E1, E2. subst d y. unfold in_unsigned. split; [|split; apply Z.mod_pos_bound; lia].
    unfold edit_creation. change (zlist_eqb (str "now") (str "now")) with true. cbn [obind].
    destruct (header_new_facts (t_doy t) (t_year t)) as (n & E' & _). 
    unfold header_new in *. destruct (schema_new 3) as [s| |]; cbn [obind] in *; try discriminate. cbn [h_doy h_year]. unfold set_creation_doy, set_creation_year. rewrite !Z.mod_mod by lia. reflexivity.
  - cbn [fst snd] in *. destruct (numeral_chars a d A) as (_ & PA & _). destruct (numeral_chars b y B) as (_ & PB & _). split; [|unfold in_unsigned; lia].
    unfold edit_creation. rewrite (atoi_ok a d A) by lia. cbn [obind]. rewrite (atoi_ok b y B) by lia. cbn [obind].
    destruct (Z.ltb_spec d 0); [lia|]. destruct (Z.ltb_spec 366 d); [lia|]. destruct (Z.ltb_spec y 0); [lia|]. cbn [orb obind].
    unfold set_creation_doy, set_creation_year. rewrite !Z.mod_small by lia. reflexivity.
Qed.

Lemma the_vlr_wf v l : vlr_text readraw v l -> vlr_wf (the_vlr v) /\ v_size (the_vlr v) = Z.of_nat (length (v_data (the_vlr v))).
Proof.
  intros ((LU & BU & _) & (LD & BD & _) & BB & LB & id & what & Hid & I & _). destruct (numeral_chars id _ Hid) as (_ & P & _).
  split; [|reflexivity]. unfold vlr_wf, the_vlr. cbn [v_user v_desc v_data v_reserved v_id v_size]. unfold in_unsigned.
  split; [now apply pad_to_length|]. split; [now apply pad_to_length|]. split; [now apply bytes_pad|]. split; [now apply bytes_pad|]. split; [exact BB|]. lia.
Qed.
Lemma edit_add_ok c a h : both (vlr_text readraw) (c_vlr c) a -> in_unsigned 32 (h_nvlr h) ->
  exists n, when_given a (edit_add readraw) h = Ok (h_upd_vlrs h n (h_vlrs h ++ added c)) /\ in_unsigned 32 n.
Proof.
  unfold added. destruct (c_vlr c) as [v|], a as [l|]; cbn [both when_given]; try tauto.
  2:{ intros _ U. exists (h_nvlr h). split; [|exact U]. rewrite app_nil_r. destruct h; reflexivity. }
  intros HV U. exists ((h_nvlr h + 1) mod 2 ^ 32). split; [|unfold in_unsigned; apply Z.mod_pos_bound; lia].
  destruct HV as ((LU & BU & NU) & (LD & BD & ND) & BB & LB & id & what & Hid & I & HW & HL). destruct (numeral_chars id _ Hid) as (_ & P & _).
  assert (HI : vlr_id id = Ok (n_id v)).
  { unfold vlr_id. rewrite (atoi_ok id _ Hid) by lia. cbn [obind]. destruct (Z.ltb_spec (n_id v) 0); [lia|]. destruct (Z.ltb_spec 65535 (n_id v)); [lia|reflexivity]. }
  assert (HP : vlr_payload readraw what = Ok (n_data v)).
  { unfold vlr_payload. destruct HW as [(-> & N)|(-> & ->)]; [destruct (n_data v); [contradiction|reflexivity]|reflexivity]. }
  assert (HU : vlr_set_user vlr_new (n_user v) = Ok (mkVlr (repeat 0 40) (repeat 0 32) (pad_to 16 (n_user v)) 43707 0 0)).
  { unfold vlr_set_user, vlr_new. cbn [v_user v_data v_desc v_reserved v_id v_size]. unfold eUserIdSize, eDescriptionSize. rewrite repeat_length. destruct (Nat.ltb_spec 16 (length (n_user v))); [lia|reflexivity]. }
  destruct HL as [->|(D0 & ->)]; unfold edit_add; cbn [obind]; rewrite HU; cbn [obind]; rewrite HI; cbn [obind].
  - unfold vlr_set_desc, vlr_set_id. cbn [v_user v_data v_desc v_reserved v_id v_size]. rewrite repeat_length. destruct (Nat.ltb_spec 32 (length (n_desc v))); [lia|]. cbn [obind]. rewrite HP. cbn [obind].
    destruct (Z.ltb_spec 65535 (Z.of_nat (length (n_data v)))); [lia|]. unfold add_vlr, vlr_set_size, vlr_set_data, the_vlr. cbn [v_user v_data v_desc v_reserved v_id v_size]. rewrite (Z.mod_small (n_id v)), (Z.mod_small (Z.of_nat _)) by lia. reflexivity.
  - unfold vlr_set_id. cbn [v_user v_data v_desc v_reserved v_id v_size]. rewrite HP. cbn [obind].
    destruct (Z.ltb_spec 65535 (Z.of_nat (length (n_data v)))); [lia|]. unfold add_vlr, vlr_set_size, vlr_set_data, the_vlr. cbn [v_user v_data v_desc v_reserved v_id v_size]. rewrite D0, (Z.mod_small (n_id v)), (Z.mod_small (Z.of_nat _)) by lia. reflexivity.
Qed.
Lemma edit_software_ok c a h : both (fun v s => s = v /\ label 32 v) c a ->
  when_given a (fun s h => set_software_id h s) h = Ok (h_upd_swid h (or_else (option_map (strncpy 32) c) (h_swid h))).
Proof.
  destruct c as [v|], a as [s|]; cbn [both when_given or_else option_map]; try tauto; [|intros _; destruct h; reflexivity].
  intros (-> & L & _). unfold set_software_id, eSoftwareIdSize. destruct (Nat.ltb_spec 32 (length v)); [lia|reflexivity].
Qed.
Lemma edit_system_ok c a h : both (fun v s => s = v /\ label 32 v) c a ->
  when_given a (fun s h => set_system_id h s) h = Ok (h_upd_sysid h (or_else (option_map (strncpy 32) c) (h_sysid h))).
Proof.
  destruct c as [v|], a as [s|]; cbn [both when_given or_else option_map]; try tauto; [|intros _; destruct h; reflexivity].
  intros (-> & L & _). unfold set_system_id, eSystemIdSize. destruct (Nat.ltb_spec 32 (length v)); [lia|reflexivity].
Qed.

(** the header afterwards *)
Definition after (c : change) (h : header) (s : schema) (n : Z) : header :=
  mkHeader (h_sig h) (h_srcid h) (h_reserved h) (h_guid h) (h_vmaj h) (or_else (c_minor c) (h_vmin h))
    (or_else (option_map (strncpy 32) (c_system c)) (h_sysid h)) (or_else (option_map (strncpy 32) (c_software c)) (h_swid h))
    (or_else (option_map fst (c_date c)) (h_doy h)) (or_else (option_map snd (c_date c)) (h_year h)) (h_hsize h) (h_doff h) n (h_npts h) (h_byret h)
    (or_else (c_scale c) (h_scale h)) (or_else (c_offset c) (h_offset h)) (h_max h) (h_min h) (h_vlrs h ++ added c) (h_srs h) s (h_comp h) (h_pad h).

Lemma edit_ok c o h fmt : typed_as atof readraw t c o -> sinv 8 (h_schema h) (std_fields fmt) -> s_format (h_schema h) = fmt -> in_unsigned 32 (h_nvlr h) ->
  exists s n, edit_header atof readraw t o h = Ok (after c h s n) /\ in_unsigned 32 n /\ s_format s = or_else (c_format c) fmt /\
    exists k, sinv k s (std_fields (or_else (c_format c) fmt)).
Proof.
  intros (T1 & T2 & T3 & T4 & T5 & T6 & T7 & T8 & T9 & T10 & T11) I F U. unfold edit_header.
  rewrite (edit_offset_ok _ _ h T1). cbn [obind]. set (h1 := h_upd_offset h _).
  rewrite (edit_scale_ok _ _ h1 T2). cbn [obind]. set (h2 := h_upd_scale h1 _).
  rewrite (edit_version_ok _ _ h2 T3). cbn [obind]. set (h3 := h_upd_vmin h2 _).
  destruct (edit_format_ok (c_format c) (a_point_format o) h3 fmt T4 I F) as (s & E & FS & IS). rewrite E. cbn [obind]. set (h4 := h_upd_schema h3 s).
  rewrite T9. cbn [when_given obind].
  destruct (edit_creation_ok (c_date c) (a_creation o) h4 T5) as (E5 & _). rewrite E5. cbn [obind]. set (h5 := h_upd_year _ _).
  rewrite T10, T11. cbn [when_given obind].
  destruct (edit_add_ok c (a_add_vlr o) h5 T6 U) as (n & E6 & UN). rewrite E6. cbn [obind]. set (h6 := h_upd_vlrs _ _ _).
  rewrite (edit_software_ok _ _ h6 T7). cbn [obind]. set (h7 := h_upd_swid _ _).
  rewrite (edit_system_ok _ _ h7 T8). exists s, n. split; [|split; [exact UN|split; [exact FS|exact IS]]].
  apply (f_equal Ok). destruct h. reflexivity.
Qed.

Lemma after_wf c o h s n : typed_as atof readraw t c o -> header_wf h -> in_unsigned 32 n -> header_wf (after c h s n).
Proof.
  intros (_ & _ & T3 & _ & T5 & T6 & T7 & T8 & _) (H1&H2&H3&H4&H5&H6&H7&H8&H9&H10&H11&H12&H13&H14&H15&H16&H17&H18&H19&H20&H21&H22&H23) U.
  assert (W3 : in_unsigned 8 (or_else (c_minor c) (h_vmin h))).
  { destruct (c_minor c) as [m|], (a_file_format o) as [f|]; cbn [both or_else] in *; try tauto. destruct T3 as (b & Hb & M & _). destruct (numeral_chars b m Hb) as (_ & P & _). unfold in_unsigned. lia. }
  assert (W5 : in_unsigned 16 (or_else (option_map fst (c_date c)) (h_doy h)) /\ in_unsigned 16 (or_else (option_map snd (c_date c)) (h_year h))).
  { destruct (edit_creation_ok _ _ h T5) as (_ & X). destruct (c_date c); cbn [when or_else option_map] in *; auto. }
  assert (LB : forall a b x, both (fun v s => s = v /\ label 32 v) a b -> length x = 32%nat -> bytes_ok x ->
     length (or_else (option_map (strncpy 32) a) x) = 32%nat /\ bytes_ok (or_else (option_map (strncpy 32) a) x)).
  { intros a b x B L X. destruct a as [a|], b as [b|]; cbn [both or_else option_map] in *; try tauto. destruct B as (-> & _ & B & _). split; [apply strncpy_length|now apply bytes_strncpy]. }
  destruct (LB _ _ _ T7 H11 H12) as (L7 & B7). destruct (LB _ _ _ T8 H9 H10) as (L8 & B8).
  assert (WV : Forall vlr_wf (h_vlrs h ++ added c)).
  { apply Forall_app. split; [exact H21|]. unfold added. destruct (c_vlr c) as [v|], (a_add_vlr o) as [l|]; cbn [both] in T6; try tauto; [|constructor]. constructor; [apply (the_vlr_wf v l T6)|constructor]. }
  unfold header_wf, after. cbn [h_sig h_srcid h_reserved h_guid h_vmaj h_vmin h_sysid h_swid h_doy h_year h_hsize h_doff h_nvlr h_npts h_byret h_vlrs h_srs h_pad].
  tauto.
Qed.
End Steps.

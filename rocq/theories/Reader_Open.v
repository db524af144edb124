(** Opening and resetting a reader. *)
From Coq Require Import ZArith List Bool Lia String.
From Coq Require Import ZifyBool ZifyNat.
Import ListNotations.
From Verif Require Import Outcome Bytes Float64 CStr Vlr_Model Schema_Model Schema_Spec Schema_Api Schema_Proofs
  Header_Model Point_Model Stream_Model Stream_Proofs Reader_Model IO_Spec Reader_Proofs Reader_Vlrs Reader_Schema.
Local Open Scope Z_scope.

Lemma sinv_mono k j s fs : k <= j -> sinv k s fs -> sinv j s fs.
Proof.
  intros H (np & ds & R1 & R2 & R3 & R4 & R5 & R6 & R7 & R8 & R9). exists np, ds.
  repeat (split; [assumption || lia|]). lia.
Qed.
Lemma sinv_shrink k j s fs : sinv k s fs -> 0 <= j -> s_nextpos s <= 16 + j ->
  Z.of_nat (List.length fs) <= Z.of_nat (List.length (std_fields (s_format s))) + j -> sinv j s fs.
Proof.
  intros (np & ds & R1 & R2 & R3 & R4 & R5 & R6 & R7 & R8 & R9) Hj Hn Hl.
  assert (s_nextpos s = np) by (rewrite R1; reflexivity).
  exists np, ds. repeat (split; [assumption || lia|]). lia.
Qed.

Lemma set_fmt_sinv_tight k s fs f j : 0 <= k -> k + 100 < 2 ^ 30 -> sinv k s fs -> 0 <= f <= 3 ->
  0 <= j -> Z.of_nat (List.length (custom_fields fs)) <= j ->
  exists s', set_format s f = (s', Ok tt) /\ sinv j s' (std_fields f ++ custom_fields fs) /\ s_format s' = f.
Proof.
  intros Hk Hk2 Hi Hf Hj Hc. destruct (set_fmt_sinv k s fs f Hk Hk2 Hi Hf) as (s' & E & Hi' & Ff).
  exists s'. split; [exact E|]. split; [|exact Ff].
  apply (sinv_shrink _ _ _ _ Hi' Hj).
  2:{ rewrite Ff, app_length. lia. }
  destruct Hi as (np & ds & Es & Hs & Hb & Hnp & Ef & Hn & (cs & Ecs & Hcs) & Hfmt & Hlen).
  assert (C : Forall2 same_core (calc_loop 0 0 ds) ds) by apply calc_loop_same.
  assert (Sc : sorted (calc_loop 0 0 ds)) by (eapply F2_sorted; [exact C|exact Hs]).
  assert (Fc : map field_of (calc_loop 0 0 ds) = map field_of ds).
  { apply F2_map; [|exact C]. intros a b (H1 & H2 & H3 & _). unfold field_of. congruence. }
  set (user := by_pos (filter (fun d => negb (d_required d)) (s_dims s))).
  assert (Eu : user = filter (fun d => negb (d_required d)) (calc_loop 0 0 ds)).
  { unfold user. rewrite Es. cbn [canon s_dims]. apply by_pos_sorted. apply filter_sorted, Sc. }
  assert (Euf : map field_of user = custom_fields fs).
  { rewrite Eu. rewrite (filter_field_of _ (fun f => negb (f_required f))) by reflexivity. now rewrite Fc, Ef. }
  assert (Ecus : custom_fields fs = cs).
  { rewrite Ecs. apply custom_of_prefix. eapply Forall_impl; [|exact Hcs]. cbv beta. tauto. }
  assert (Hun : map d_name user = map f_name cs) by (rewrite <- names_map, Euf, Ecus; reflexivity).
  pose proof (update_required_ok s f Hf) as U. cbv zeta in U. fold user in U.
  assert (NDc : NoDup (map f_name cs)).
  { rewrite Ecs, map_app in Hn. revert Hn. generalize (map f_name (std_fields (s_format s))).
    induction l; cbn [app]; intros H; [exact H|]. inversion H; auto. }
  rewrite Hun in U. specialize (U NDc).
  assert (Hcn : forall n, In n (map f_name cs) -> ~ In n std_names).
  { intros n Hin. apply in_map_iff in Hin as (x & <- & Hx). rewrite Forall_forall in Hcs. apply Hcs. exact Hx. }
  specialize (U Hcn).
  assert (Hul : List.length user = List.length cs) by (rewrite <- (map_length d_name user), Hun; apply map_length).
  assert (Hcl : (List.length cs <= List.length fs)%nat) by (rewrite Ecs, app_length; lia).
  assert (S3 : (List.length (std_fields (s_format s)) <= 16)%nat) by (unfold std_fields; destruct (_ || _), (_ || _); cbn; lia).
  specialize (U ltac:(lia)).
  unfold set_format in E. rewrite U in E. apply (f_equal fst) in E. cbn [fst] in E. rewrite <- E.
  unfold calculate_sizes. cbn [canon s_nextpos]. rewrite place_length, app_length, Hul.
  assert (S16 : (List.length (std_dims f) <= 16)%nat) by (unfold std_dims; destruct (_ || _), (_ || _); cbn; lia).
  rewrite <- Ecus. lia.
Qed.

Lemma is_schema_vlr_id v : is_schema_vlr v = has_id "liblas" 7 v.
Proof. unfold is_schema_vlr, has_id, vlr_get_user. cbn [andb]. reflexivity. Qed.

Lemma find_none_forall {A} (f : A -> bool) l : Forall (fun x => f x = false) l -> find f l = None.
Proof. induction 1 as [|x l Hx Hl IH]; cbn [find]; [reflexivity|]. now rewrite Hx. Qed.

Lemma vlr_sizes_ok n : forall l, (n <= List.length l)%nat -> exists b, vlr_sizes n l = Ok b /\ 0 <= b < 2 ^ 32.
Proof.
  induction n as [|n IH]; intros l H; cbn [vlr_sizes].
  - exists 0. split; [reflexivity|lia].
  - destruct l as [|v l]; cbn [List.length] in H; [lia|]. destruct (IH l ltac:(lia)) as (b & -> & Hb). cbn [obind].
    eexists. split; [reflexivity|]. apply Z.mod_pos_bound. lia.
Qed.

(** the header after the VLRs were read *)
Definition with_file_vlrs (F : list Z) (h : header) : header :=
  if 0 <? u_at F 100 4
  then set_srs (with_vlrs h (u_at F 100 4) (file_vlrs F)) (h_vlrs h ++ file_vlrs F) else h.

Definition layout_of (F : list Z) : list field :=
  std_fields (u_at F 104 1) ++ extra_fields (u_at F 104 1) (u_at F 105 2).

(** the VLRs yield no schema, because there is no schema VLR or because its content is rejected: the reader
    then falls back on the standard layout of the format *)
Definition falls_back (xml : vlr -> outcome schema) (l : list vlr) : Prop := schema_of_vlrs xml l = Throw ERuntime.

Lemma plain_falls_back xml l : Forall (fun v => has_id "liblas" 7 v = false) l -> falls_back xml l.
Proof.
  intros H. unfold falls_back, schema_of_vlrs. rewrite (find_none_forall is_schema_vlr); [reflexivity|].
  eapply Forall_impl; [|exact H]. cbv beta. intros v Hv. exact (eq_trans (is_schema_vlr_id v) Hv).
Qed.
Lemma falls_back_app xml l m : falls_back xml l -> falls_back xml m -> falls_back xml (l ++ m).
Proof.
  unfold falls_back, schema_of_vlrs. induction l as [|v l IH]; cbn [app find]; intros H1 H2; [exact H2|].
  destruct (is_schema_vlr v); [exact H1|auto].
Qed.
Lemma falls_back_repeat xml l k : falls_back xml l -> falls_back xml (List.concat (repeat l k)).
Proof. intros H. induction k as [|k IH]; cbn [repeat List.concat]; [reflexivity|]. now apply falls_back_app. Qed.

Lemma header_rest_ok xml F h0 sc fs : las_file F ->
  falls_back xml (h_vlrs h0 ++ file_vlrs F) ->
  sinv 1 sc fs -> s_format sc = u_at F 104 1 -> fs = std_fields (u_at F 104 1) \/ fs = layout_of F ->
  exists s' pad, header_rest xml (parsed F h0 sc false) (at_pos F 227) (u_at F 105 2) =
    Ok (h_upd_schema (h_upd_pad (with_file_vlrs F (parsed F h0 sc false)) pad) s', at_pos F (Z.to_nat (u_at F 96 4))) /\
    sinv 8 s' (layout_of F) /\ s_format s' = u_at F 104 1 /\ 0 <= pad < 2 ^ 32 /\
    (forall b, vlr_block_size (with_file_vlrs F (parsed F h0 sc false)) = Ok b -> pad = (u_at F 96 4 - (u_at F 94 2 + b)) mod 2 ^ 32).
Proof.
  intros (HB & HL & Hsig & Hmaj & Hmin & Hoff & Hfmt & HV) Hns Hi Ef Hfs.
  pose proof (u_at_range F 104 1 HB) as Rf. pose proof (u_at_range F 105 2 HB) as Rl.
  pose proof (u_at_range F 100 4 HB) as Rn. pose proof (u_at_range F 94 2 HB) as Rh.
  pose proof (u_at_range F 96 4 HB) as Rd.
  rewrite pow256_pow2 in *. cbn [Z.of_nat Z.mul Pos.of_succ_nat Pos.succ Pos.mul] in *.
  set (h1 := parsed F h0 sc false) in *. unfold header_rest.
  assert (Step : exists s1 fs1, (if 0 <? h_nvlr h1 then read_vlrs xml (at_pos F 227) h1 else Ok (h1, at_pos F 227)) =
      Ok (h_upd_schema (with_file_vlrs F h1) s1, if 0 <? h_nvlr h1 then at_pos F (file_vlrs_end F) else at_pos F 227) /\
      sinv 3 s1 fs1 /\ s_format s1 = u_at F 104 1 /\ (fs1 = std_fields (u_at F 104 1) \/ fs1 = layout_of F)).
  { change (h_nvlr h1) with (u_at F 100 4). unfold with_file_vlrs.
    destruct (Z.ltb_spec 0 (u_at F 100 4)) as [Hn|Hn].
    - unfold read_vlrs. change (is_eof (at_pos F 227)) with false. cbn iota.
      rewrite is_seek_ok by (reflexivity || (change (h_hsize h1) with (u_at F 94 2); lia)).
      change (is_data (at_pos F 227)) with F. change (h_hsize h1) with (u_at F 94 2). change (h_nvlr h1) with (u_at F 100 4).
      rewrite read_vlr_loop_ok; [|exact HB|exact (HV Hn)|exact I|cbn; lia|change (h_nvlr (set_records_count h1 0)) with 0; lia].
      cbn [obind]. change (h_nvlr (set_records_count h1 0)) with 0. rewrite Z.add_0_l, Z2Nat.id by lia.
      fold (file_vlrs F). fold (file_vlrs_end F).
      set (h2 := set_srs _ _).
      assert (Eh2 : h2 = set_srs (with_vlrs h1 (u_at F 100 4) (file_vlrs F)) (h_vlrs h1 ++ file_vlrs F)) by reflexivity.
      assert (Ev : h_vlrs h2 = h_vlrs h0 ++ file_vlrs F) by reflexivity.
      rewrite Ev. unfold falls_back in Hns. rewrite Hns.
      cbn [obind].
      assert (Eg : get_format h2 = u_at F 104 1) by (unfold get_format; exact Ef). rewrite Eg.
      destruct (sinv_new (u_at F 104 1) ltac:(lia)) as (sn & En & Hin & Fn). rewrite En. cbn [obind].
      destruct (set_schema_sinv h2 0 sn _ ltac:(lia) ltac:(lia) Hin) as (s1 & Es1 & Hi1 & F1).
      rewrite Es1. cbn [obind]. exists s1, (std_fields (u_at F 104 1)). rewrite Eh2. split; [reflexivity|].
      split; [exact Hi1|]. split; [congruence|auto].
    - exists sc, fs. split; [reflexivity|]. split; [|auto]. now apply (sinv_mono 1). }
  destruct Step as (s1 & fs1 & -> & Hi1 & F1 & Hfs1). cbn [obind].
  set (h3 := h_upd_schema (with_file_vlrs F h1) s1).
  assert (NV : h_nvlr h3 = u_at F 100 4) by (unfold h3, with_file_vlrs; destruct (_ <? _); reflexivity).
  assert (NL : (Z.to_nat (h_nvlr h3) <= List.length (h_vlrs h3))%nat).
  { rewrite NV. unfold h3, with_file_vlrs. destruct (Z.ltb_spec 0 (u_at F 100 4)) as [Hn|Hn].
    - change (h_vlrs _) with (h_vlrs h0 ++ file_vlrs F). rewrite app_length. unfold file_vlrs. rewrite vlrs_at_length. lia.
    - replace (Z.to_nat (u_at F 100 4)) with 0%nat by lia. lia. }
  destruct (vlr_sizes_ok _ _ NL) as (b & Eb & Hb). unfold vlr_block_size. rewrite Eb. cbn [obind].
  assert (ED : h_doff h3 = u_at F 96 4) by (unfold h3, with_file_vlrs; destruct (_ <? _); reflexivity).
  set (pad := (h_doff h3 - (h_hsize h3 + b)) mod 2 ^ 32).
  assert (Hpad : 0 <= pad < 2 ^ 32) by (apply Z.mod_pos_bound; lia).
  assert (EP : set_header_padding h3 (h_doff h3 - (h_hsize h3 + b)) = h_upd_pad h3 pad) by reflexivity.
  rewrite EP.
  assert (ES : h_schema (h_upd_pad h3 pad) = s1) by reflexivity.
  destruct (add_extra_sinv (h_upd_pad h3 pad) 3 (u_at F 104 1) (u_at F 105 2) fs1) as (s' & EX & Hi' & F');
    try lia; try (rewrite ES; assumption); [exact Hfs1|].
  rewrite EX. cbn [obind].
  assert (EDP : h_doff (h_upd_pad h3 pad) = u_at F 96 4) by exact ED. rewrite EDP.
  assert (EH : h_hsize h3 = u_at F 94 2) by (unfold h3, with_file_vlrs; destruct (_ <? _); reflexivity).
  exists s', pad. split; [|split; [|split; [|split]]].
  - destruct (0 <? h_nvlr h1); cbn [at_pos is_eof]; rewrite is_seek_ok by (reflexivity || lia); reflexivity.
  - apply (sinv_mono 7); [lia|exact Hi'].
  - exact F'.
  - exact Hpad.
  - intros b' E'. pose proof (eq_trans (eq_sym Eb) E') as X. injection X as <-. unfold pad. now rewrite ED, EH.
Qed.

(** ** What an opened header shows *)
Definition shows_file (F : list Z) (h : header) : Prop :=
  pub_of_header h = pub_of_file F /\ h_guid h = slice F 8 16 /\
  h_comp h = false /\ List.length (h_byret h) = 7%nat /\ h_srs h = filter is_geo_vlr (h_vlrs h) /\
  sinv 8 (h_schema h) (layout_of F) /\ s_format (h_schema h) = u_at F 104 1.

Lemma bits3_parsed F a b c : bytes_ok F ->
  bits3 (f64_of_bits (u_at F a 8), f64_of_bits (u_at F b 8), f64_of_bits (u_at F c 8)) = (u_at F a 8, u_at F b 8, u_at F c 8).
Proof.
  intros HB. unfold bits3. cbn [x_of y_of z_of fst snd].
  rewrite !f64_bits_of_bits; [reflexivity| | |]; match goal with |- context [u_at F ?o 8] =>
    pose proof (u_at_range F o 8 HB) as R; rewrite pow256_pow2 in R; exact R end.
Qed.

Lemma pub_ext h sg src rs vj vn sy sw dy yr hs df nv np br sc of mx mn :
  h_sig h = sg -> h_srcid h = src -> h_reserved h = rs -> h_vmaj h = vj -> h_vmin h = vn -> h_sysid h = sy -> h_swid h = sw ->
  h_doy h = dy -> h_year h = yr -> h_hsize h = hs -> h_doff h = df -> h_nvlr h = nv -> h_npts h = np -> h_byret h = br ->
  h_scale h = sc -> h_offset h = of -> h_max h = mx -> h_min h = mn ->
  pub_of_header h = mkPub sg src rs vj vn (until_nul sy) (until_nul sw) dy yr hs df nv (get_format h) (get_record_length h) np
    (firstn 5 br) (bits3 sc) (bits3 of) (bits3 mx) (bits3 mn).
Proof. intros; subst; reflexivity. Qed.

Lemma layout_bytes F s k : bytes_ok F -> u_at F 104 1 <= 3 -> sinv k s (layout_of F) -> schema_bytes s = u_at F 105 2.
Proof.
  intros HB Hf Hi. rewrite (sinv_bytes _ _ _ Hi). unfold layout_of.
  pose proof (u_at_range F 104 1 HB). pose proof (u_at_range F 105 2 HB) as R. rewrite pow256_pow2 in R.
  apply extra_total; [lia|exact R].
Qed.

Lemma parsed_shows F h0 sc s' pad : las_file F -> List.length (h_byret h0) = 7%nat ->
  h_srs h0 = filter is_geo_vlr (h_vlrs h0) ->
  sinv 8 s' (layout_of F) -> s_format s' = u_at F 104 1 ->
  shows_file F (h_upd_schema (h_upd_pad (with_file_vlrs F (parsed F h0 sc false)) pad) s').
Proof.
  intros (HB & HL & Hsig & Hmaj & Hmin & Hoff & Hfmt & HV) H7 Hsr Hi Ff. unfold shows_file.
  set (h := h_upd_schema _ s').
  assert (EG : h_guid h = slice F 8 16) by (unfold h, with_file_vlrs; destruct (0 <? u_at F 100 4); reflexivity).
  assert (EC : h_comp h = false) by (unfold h, with_file_vlrs; destruct (0 <? u_at F 100 4); reflexivity).
  assert (EB : h_byret h = [u_at F 111 4; u_at F 115 4; u_at F 119 4; u_at F 123 4; u_at F 127 4] ++ skipn 5 (h_byret h0))
    by (unfold h, with_file_vlrs; destruct (0 <? u_at F 100 4); reflexivity).
  assert (ESr : h_srs h = filter is_geo_vlr (h_vlrs h)) by (unfold h, with_file_vlrs; destruct (0 <? u_at F 100 4); [reflexivity|exact Hsr]).
  assert (ESch : h_schema h = s') by reflexivity.
  assert (RL : get_record_length h = u_at F 105 2).
  { unfold get_record_length. change (h_schema h) with s'. rewrite (layout_bytes F s' 8) by assumption.
    now apply (u_at_mod F 105 2 16). }
  assert (FMT : get_format h = u_at F 104 1) by exact Ff.
  assert (P : pub_of_header h = mkPub (str "LASF") (u_at F 4 2) (u_at F 6 2) (u_at F 24 1) (u_at F 25 1)
     (until_nul (strncpy 32 (slice F 26 32))) (until_nul (strncpy 32 (slice F 58 32))) (u_at F 90 2) (u_at F 92 2) (u_at F 94 2)
     (u_at F 96 4) (u_at F 100 4) (get_format h) (get_record_length h) (u_at F 107 4)
     (firstn 5 ([u_at F 111 4; u_at F 115 4; u_at F 119 4; u_at F 123 4; u_at F 127 4] ++ skipn 5 (h_byret h0)))
     (bits3 (f64_of_bits (u_at F 131 8), f64_of_bits (u_at F 139 8), f64_of_bits (u_at F 147 8)))
     (bits3 (f64_of_bits (u_at F 155 8), f64_of_bits (u_at F 163 8), f64_of_bits (u_at F 171 8)))
     (bits3 (f64_of_bits (u_at F 179 8), f64_of_bits (u_at F 195 8), f64_of_bits (u_at F 211 8)))
     (bits3 (f64_of_bits (u_at F 187 8), f64_of_bits (u_at F 203 8), f64_of_bits (u_at F 219 8)))).
  { apply pub_ext; unfold h, with_file_vlrs; destruct (0 <? u_at F 100 4); reflexivity. }
  clearbody h.
  split.
  - rewrite P, RL, FMT, !bits3_parsed by assumption.
    rewrite !strncpy_short by (rewrite slice_length; lia). unfold pub_of_file. rewrite Hsig. reflexivity.
  - split; [exact EG|]. split; [exact EC|].
    split; [rewrite EB, app_length, skipn_length, H7; reflexivity|].
    split; [exact ESr|]. rewrite ESch. split; [exact Hi|exact Ff].
Qed.

Lemma vlr_at_wf F p : bytes_ok F -> (vlr_end F p <= List.length F)%nat -> vlr_wf (vlr_at F p).
Proof.
  intros HB HL. unfold vlr_end in HL. unfold vlr_wf, vlr_at, eUserIdSize, eDescriptionSize. cbn [v_user v_desc v_data v_reserved v_id v_size].
  rewrite !slice_length by lia. split; [reflexivity|]. split; [reflexivity|].
  split; [now apply slice_bytes|]. split; [now apply slice_bytes|]. split; [now apply slice_bytes|].
  pose proof (u_at_range F p 2 HB). pose proof (u_at_range F (p + 18) 2 HB). pose proof (u_at_range F (p + 20) 2 HB).
  rewrite pow256_pow2 in *. unfold in_unsigned. auto.
Qed.
Lemma vlrs_at_wf n : forall F p, bytes_ok F -> (vlrs_end n F p <= List.length F)%nat -> Forall vlr_wf (vlrs_at n F p).
Proof.
  induction n as [|n IH]; intros F p HB HL; cbn [vlrs_at vlrs_end] in *; constructor.
  - apply vlr_at_wf; [exact HB|]. pose proof (vlrs_end_ge n F (vlr_end F p)). lia.
  - now apply IH.
Qed.
Lemma file_vlrs_wf F : las_file F -> Forall vlr_wf (file_vlrs F).
Proof.
  intros (HB & HL & Hsig & Hmaj & Hmin & Hoff & Hfmt & HV). unfold file_vlrs.
  pose proof (u_at_range F 100 4 HB) as R. destruct (Z.eq_dec (u_at F 100 4) 0) as [E|E].
  - rewrite E. constructor.
  - apply vlrs_at_wf; [exact HB|]. apply HV. lia.
Qed.
Lemma forall_filter {A} (P : A -> Prop) f l : Forall P l -> Forall P (filter f l).
Proof. rewrite !Forall_forall. intros H x Hx. apply filter_In in Hx. apply H, Hx. Qed.

Lemma parsed_wf F h0 sc s' pad : las_file F -> List.length (h_byret h0) = 7%nat ->
  h_srs h0 = filter is_geo_vlr (h_vlrs h0) ->
  Forall (in_unsigned 32) (h_byret h0) -> Forall vlr_wf (h_vlrs h0) -> 0 <= pad < 2 ^ 32 ->
  header_wf (h_upd_schema (h_upd_pad (with_file_vlrs F (parsed F h0 sc false)) pad) s').
Proof.
  intros HF H7 Hsr Hbr Hvl Hpad. pose proof (file_vlrs_wf F HF) as WV. destruct HF as (HB & HL & _).
  set (h := h_upd_schema _ s').
  assert (X : forall A (f : header -> A), (forall x v, f (set_srs (with_vlrs x (u_at F 100 4) (file_vlrs F)) v) = f x) ->
    f (with_file_vlrs F (parsed F h0 sc false)) = f (parsed F h0 sc false)).
  { intros A f Hf. unfold with_file_vlrs. destruct (0 <? u_at F 100 4); [apply Hf|reflexivity]. }
  assert (R : forall o, in_unsigned 8 (u_at F o 1) /\ in_unsigned 16 (u_at F o 2) /\ in_unsigned 32 (u_at F o 4)).
  { intros o. pose proof (u_at_range F o 1 HB). pose proof (u_at_range F o 2 HB). pose proof (u_at_range F o 4 HB).
    rewrite pow256_pow2 in *. unfold in_unsigned. auto. }
  assert (Hv : Forall vlr_wf (h_vlrs h)).
  { unfold h, with_file_vlrs. destruct (0 <? u_at F 100 4); [|exact Hvl].
    change (Forall vlr_wf (h_vlrs h0 ++ file_vlrs F)). apply Forall_app. auto. }
  assert (Hs : Forall vlr_wf (h_srs h)).
  { unfold h, with_file_vlrs. destruct (0 <? u_at F 100 4).
    - change (Forall vlr_wf (filter is_geo_vlr (h_vlrs h0 ++ file_vlrs F))). apply forall_filter, Forall_app. auto.
    - change (Forall vlr_wf (h_srs h0)). rewrite Hsr. now apply forall_filter. }
  assert (HN : h_nvlr h = u_at F 100 4).
  { unfold h, with_file_vlrs. destruct (0 <? u_at F 100 4); reflexivity. }
  unfold header_wf. rewrite HN.
  change (h_sig h) with (h_sig (with_file_vlrs F (parsed F h0 sc false))).
  change (h_srcid h) with (h_srcid (with_file_vlrs F (parsed F h0 sc false))).
  change (h_reserved h) with (h_reserved (with_file_vlrs F (parsed F h0 sc false))).
  change (h_guid h) with (h_guid (with_file_vlrs F (parsed F h0 sc false))).
  change (h_vmaj h) with (h_vmaj (with_file_vlrs F (parsed F h0 sc false))).
  change (h_vmin h) with (h_vmin (with_file_vlrs F (parsed F h0 sc false))).
  change (h_sysid h) with (h_sysid (with_file_vlrs F (parsed F h0 sc false))).
  change (h_swid h) with (h_swid (with_file_vlrs F (parsed F h0 sc false))).
  change (h_doy h) with (h_doy (with_file_vlrs F (parsed F h0 sc false))).
  change (h_year h) with (h_year (with_file_vlrs F (parsed F h0 sc false))).
  change (h_hsize h) with (h_hsize (with_file_vlrs F (parsed F h0 sc false))).
  change (h_doff h) with (h_doff (with_file_vlrs F (parsed F h0 sc false))).
  change (h_npts h) with (h_npts (with_file_vlrs F (parsed F h0 sc false))).
  change (h_byret h) with (h_byret (with_file_vlrs F (parsed F h0 sc false))).
  rewrite !X by reflexivity. cbn [parsed h_sig h_srcid h_reserved h_guid h_vmaj h_vmin h_sysid h_swid h_doy h_year h_hsize h_doff h_npts h_byret].
  change (h_pad h) with pad.
  unfold eFileSignatureSize, eSystemIdSize, eSoftwareIdSize, ePointsByReturnSize.
  split; [reflexivity|]. split; [apply Forall_forall; intros b Hb; cbn in Hb; unfold is_byte; intuition lia|].
  split; [apply R|]. split; [apply R|]. split; [apply slice_length; lia|]. split; [now apply slice_bytes|].
  split; [apply R|]. split; [apply R|].
  assert (SL : forall o, bytes_ok (strncpy 32 (slice F o 32)) /\ List.length (strncpy 32 (slice F o 32)) = 32%nat).
  { intros o. split; [now apply bytes_strncpy, slice_bytes|apply strncpy_length]. }
  split; [apply SL|]. split; [apply SL|]. split; [apply SL|]. split; [apply SL|].
  split; [apply R|]. split; [apply R|]. split; [apply R|]. split; [apply R|]. split; [apply R|]. split; [apply R|].
  split; [rewrite app_length, skipn_length, H7; reflexivity|].
  split.
  { apply Forall_app. split; [repeat (constructor; [apply R|]); constructor|].
    rewrite <- (firstn_skipn 5 (h_byret h0)) in Hbr. apply Forall_app in Hbr. apply Hbr. }
  split; [exact Hv|]. split; [exact Hs|]. exact Hpad.
Qed.

Lemma land63_small b : 0 <= b <= 3 -> Z.land b 63 = b /\ Z.testbit b 6 = false /\ Z.testbit b 7 = false.
Proof. intros H. assert (E : b = 0 \/ b = 1 \/ b = 2 \/ b = 3) by lia. destruct E as [E|[E|[E|E]]]; subst; auto. Qed.

(** ReadHeader over a header object with layout [fs0] *)
Lemma read_header_ok xml s F h0 fs0 : is_fail s = false -> is_data s = F -> las_file F ->
  List.length (h_byret h0) = 7%nat -> h_srs h0 = filter is_geo_vlr (h_vlrs h0) ->
  falls_back xml (h_vlrs h0 ++ file_vlrs F) ->
  sinv 8 (h_schema h0) fs0 -> custom_fields fs0 = [] \/ fs0 = layout_of F ->
  exists h, read_header xml s h0 = Ok (h, at_pos F (Z.to_nat (u_at F 96 4))) /\ shows_file F h /\
    h_vlrs h = h_vlrs h0 ++ file_vlrs F /\
    (0 <= h_pad h < 2 ^ 32 /\ forall b, vlr_block_size h = Ok b -> h_pad h = (h_doff h - (h_hsize h + b)) mod 2 ^ 32) /\
    (Forall (in_unsigned 32) (h_byret h0) -> Forall vlr_wf (h_vlrs h0) -> header_wf h).
Proof.
  intros Hf HD HF H7 Hsr Hns Hi Hfs. pose proof HF as (HB & HL & Hsig & Hmaj & Hmin & Hoff & Hfmt & HV).
  rewrite (read_header_eq xml s h0 F Hf HD HB HL H7). unfold read_header_result, fmt_byte.
  pose proof (u_at_range F 104 1 HB) as Rf.
  destruct (land63_small (u_at F 104 1) ltac:(lia)) as (L63 & B6 & B7). rewrite L63, B6, B7.
  assert (ES : zlist_eqb (slice F 0 4) (str "LASF") = true) by (now apply zlist_eqb_spec). rewrite ES. cbn [negb].
  rewrite Hmaj. cbn [Z.eqb Pos.eqb negb].
  destruct (Z.ltb_spec 3 (u_at F 25 1)); [lia|]. destruct (Z.ltb_spec (u_at F 96 4) (u_at F 94 2)); [lia|].
  destruct (Z.ltb_spec 5 (u_at F 104 1)); [lia|].
  assert (LC : Z.of_nat (List.length (custom_fields fs0)) <= 1 /\
               (custom_fields fs0 = [] \/ custom_fields fs0 = extra_fields (u_at F 104 1) (u_at F 105 2))).
  { destruct Hfs as [E|E].
    - rewrite E. cbn. auto with zarith.
    - assert (C : custom_fields fs0 = extra_fields (u_at F 104 1) (u_at F 105 2)).
      { rewrite E. unfold layout_of. apply custom_of_prefix. unfold extra_fields. destruct (_ =? _); repeat constructor. }
      rewrite C. split; [|auto]. unfold extra_fields. destruct (_ =? _); cbn; lia. }
  destruct LC as (LC & CC).
  destruct (set_fmt_sinv_tight 8 _ fs0 (u_at F 104 1) 1 ltac:(lia) ltac:(lia) Hi ltac:(lia) ltac:(lia) LC) as (sc & Esc & Hsc & Fsc).
  rewrite Esc.
  destruct (header_rest_ok xml F h0 sc (std_fields (u_at F 104 1) ++ custom_fields fs0) HF Hns Hsc Fsc) as (s' & pad & R & Hi' & F' & Hpad & Hpb).
  { destruct CC as [C|C]; rewrite C; [left; apply app_nil_r|right; reflexivity]. }
  rewrite R. eexists. split; [reflexivity|]. split; [apply parsed_shows; assumption|].
  split; [|split; [split; [exact Hpad|]|intros; now apply parsed_wf]].
  2:{ intros b Eb. change (h_pad _) with pad. rewrite (Hpb b Eb). f_equal.
      unfold with_file_vlrs. destruct (0 <? u_at F 100 4); reflexivity. }
  unfold with_file_vlrs. destruct (Z.ltb_spec 0 (u_at F 100 4)) as [Hn|Hn]; [reflexivity|].
  assert (N0 : Z.to_nat (u_at F 100 4) = 0%nat) by lia.
  unfold file_vlrs. rewrite N0. cbn [vlrs_at]. rewrite app_nil_r. reflexivity.
Qed.

(** C74: the header options of las2las.  Vocabulary: Hdropt_Spec.v; model:
    Hdropt_Model.v, Las2las_Model.v. *)
From Coq Require Import ZArith List Bool Lia String.
From Coq Require Import ZifyBool ZifyNat.
Import ListNotations.
From Flocq Require Import Core BinarySingleNaN Binary Bits.
From Verif Require Import Outcome Bytes Float64 Float64_Proofs CStr Vlr_Model Schema_Model Schema_Spec Schema_Api Schema_Proofs Header_Model Point_Model Point_Spec Point_Api Point_Proofs Coord_Api Stream_Model Stream_Proofs
  IO_Spec Reader_Proofs Reader_Vlrs Reader_Model Reader_Spec Reader_Schema Reader_Api Reader_Open Reader_Hist Reader_Filter Writer_Model Writer_Api Writer_Proofs Writer_File
  Writer_Append IO_Samples Prop_Reader Iter_Spec Iter_Model Iter_Proofs Rewrite_Proofs Rewrite_Gap Rewrite_Read Prop_Rewrite Summary_Model Summary_Spec Summary_Proofs Prop_Summary Text_Model Text_Proofs
  Las2las_Spec Las2las_Copy Las2las_Model Las2las_Summary Las2las_File Las2las_Loop Las2las_Points Las2las_Main Las2las_Split Prop_Las2las
  Cli_Model Cli_Spec Cli_Proofs Hdropt_Model Hdropt_Spec Hdropt_Write Hdropt_Proofs Hdropt_Main.
Local Open Scope Z_scope.
Local Notation length := List.length (only parsing).

(** The file says what was asked for, and otherwise what it said before. *)
Theorem C74_edit_partial : forall atof readraw t F c o keep fuel, real_tool t -> typed_as atof readraw t c o -> changeable F c ->
  filterable F keep -> (Z.to_nat (f_npts F) < fuel)%nat ->
  exists r G, reader_open (t_xml t) (t_doy t) (t_year t) F = Ok r /\
    las2las_edit atof readraw t o 0 0 (the_filter keep) tt fuel F = Ok [G] /\ edited F c (r_hdr r) (delivered F (r_hdr r) keep) G.
Proof. intros. now apply edit_one with (c := c). Qed.
Print Assumptions C74_edit_partial.

(** ** What happens to the attributes *)
(** Attributes that are at the same place in both formats. *)
Definition has_time (k : Z) : bool := (k =? 1) || (k =? 3).
Definition has_color (k : Z) : bool := (k =? 2) || (k =? 3).
Definition kept (k k' : Z) (a : attr) : Prop :=
  match a with
  | ATime => has_time k = true /\ has_time k' = true
  | ARed | AGreen | ABlue => has_color k = true /\ has_color k' = true /\ has_time k = has_time k'
  | _ => True
  end.

Lemma cut_bits d n s w : bytes_ok d -> (n <= length d)%nat -> 0 <= s -> 0 <= w -> s + w <= 8 * Z.of_nat n -> bits_at (le_dec (firstn n d)) s w = bits_at (le_dec d) s w.
Proof.
  intros B N Hs W L. pose proof (le_dec_slice d 0 n B ltac:(lia)) as E. change (skipn 0 d) with d in E. rewrite E.
  change (8 * Z.of_nat 0) with 0. rewrite bits_at_bits_at by lia. f_equal.
Qed.
Lemma range_in k a s w sg : 0 <= k <= 3 -> attr_range k a = Some (s, w, sg) -> 0 <= s /\ 0 <= w /\ s + w <= 8 * std_length k.
Proof.
  intros K. assert (C : k = 0 \/ k = 1 \/ k = 2 \/ k = 3) by lia. destruct C as [ -> | [ -> | [ -> | -> ] ] ]; destruct a; cbn [attr_range Z.eqb orb Pos.eqb]; intros E; try discriminate;
    injection E as <- <- <-; cbn; lia.
Qed.
Lemma kept_range k k' a : kept k k' a -> 0 <= k <= 3 -> 0 <= k' <= 3 -> attr_range k a = attr_range k' a /\ attr_range k a <> None.
Proof.
  intros H K K'. assert (C : k = 0 \/ k = 1 \/ k = 2 \/ k = 3) by lia. assert (C' : k' = 0 \/ k' = 1 \/ k' = 2 \/ k' = 3) by lia.
  destruct a; try (split; [reflexivity|discriminate]);
    destruct C as [ -> | [ -> | [ -> | -> ] ] ]; destruct C' as [ -> | [ -> | [ -> | -> ] ] ]; cbn in H; decompose [and] H; try discriminate; split; try reflexivity; discriminate.
Qed.

Definition format_after (F : list Z) (c : change) : Z := or_else (c_format c) (u_at F 104 1).

(** the points of the new file *)
Lemma new_points t F c r r2 ds G : plain_file F -> shows_file F (r_hdr r) -> recs_ok F ds -> reclen_after F c <= f_reclen F -> 0 <= format_after F c <= 3 ->
  reclen_after F c = std_length (format_after F c) ->
  edited F c (r_hdr r) ds G -> reader_open (t_xml t) (t_doy t) (t_year t) G = Ok r2 ->
  p_format (mkPoint [] (r_hdr r2)) = format_after F c /\
  forall d, In d ds -> point_wf (mkPoint d (r_hdr r)) /\ point_wf (mkPoint (firstn (Z.to_nat (reclen_after F c)) d) (r_hdr r2)).
Proof.
  intros HP Sh HD CL HK RE (ST & RG & _ & _ & P0 & P1) E2.
  destruct (opened_header t G ST) as (r' & E' & Sh2 & _). rewrite E2 in E'. apply Writer_Append.Ok_inj in E'. subst r'.
  assert (FE : forall A (f : pubhdr -> A), (forall p a b, f (with_source p a b) = f p) -> (forall p a b, f (with_bounds p a b) = f p) -> (forall p a, f (with_returns p a) = f p) ->
     f (pub_of_file G) = f (header_after F c (Z.of_nat (length ds)))).
  { intros A f F1 F2 F3. assert (D : ds = [] \/ ds <> []) by (destruct ds; [left; reflexivity|right; discriminate]). destruct D as [D|D].
    - rewrite (P0 D), D. unfold lossy. destruct (_ =? _); [rewrite F1|]; reflexivity.
    - destruct (P1 D) as (mx & mn & rns & _ & _ & ->). unfold lossy. destruct (_ =? _); [rewrite F1|]; rewrite F3, F2; reflexivity. }
  assert (G104 : u_at G 104 1 = format_after F c) by (apply (FE _ ph_format); reflexivity).
  assert (G105 : f_reclen G = reclen_after F c) by (apply (FE _ ph_reclen); reflexivity).
  split; [unfold p_format; cbn [p_hdr]; rewrite <- G104; apply Sh2|].
  intros d Hd. destruct HD as (D & _). rewrite Forall_forall in D. destruct (D d Hd) as (B & L).
  split; [apply (file_point F (r_hdr r) d HP Sh B L)|].
  assert (B2 : bytes_ok (firstn (Z.to_nat (reclen_after F c)) d)) by now apply bytes_firstn.
  assert (L2 : Z.of_nat (length (firstn (Z.to_nat (reclen_after F c)) d)) = f_reclen G).
  { rewrite firstn_length, G105. pose proof (std_length_small (format_after F c)). lia. }
  pose proof ST as (_ & HPG).
  apply (file_point G (r_hdr r2) _ HPG Sh2 B2 L2).
Qed.

Lemma typed_format atof readraw t F c o : typed_as atof readraw t c o -> plain_file F -> 0 <= format_after F c <= 3 /\ reclen_after F c = std_length (format_after F c).
Proof.
  intros (_ & _ & _ & T4 & _) HP. pose proof HP as (HF & _ & HL & _). pose proof (u_at_range F 104 1 (proj1 HF)). assert (u_at F 104 1 <= 3) by apply HF.
  unfold format_after, reclen_after. destruct (c_format c) as [k|], (a_point_format o) as [j|]; cbn [both or_else option_map] in *; try tauto; split; try reflexivity; try lia; exact HL.
Qed.

(** A shorter format keeps every attribute both formats have at the same place. *)
Theorem C74_attributes : forall atof readraw t F c o keep fuel, real_tool t -> typed_as atof readraw t c o -> changeable F c ->
  filterable F keep -> (Z.to_nat (f_npts F) < fuel)%nat ->
  exists r G r2, reader_open (t_xml t) (t_doy t) (t_year t) F = Ok r /\
    las2las_edit atof readraw t o 0 0 (the_filter keep) tt fuel F = Ok [G] /\ reader_open (t_xml t) (t_doy t) (t_year t) G = Ok r2 /\
    length (records_from G 0) = length (delivered F (r_hdr r) keep) /\
    forall i d d' a, nth_error (delivered F (r_hdr r) keep) i = Some d -> nth_error (records_from G 0) i = Some d' -> kept (u_at F 104 1) (format_after F c) a ->
      exists v, api_get a (mkPoint d (r_hdr r)) = Ok v /\ api_get a (mkPoint d' (r_hdr r2)) = Ok v.
Proof.
  intros atof readraw t F c o keep fuel TT HT HC HK Hf. destruct (C74_edit_partial atof readraw t F c o keep fuel TT HT HC HK Hf) as (r & G & E & EL & ED).
  pose proof ED as (ST & RG & _). destruct (opened_header t G ST) as (r2 & E2 & _). exists r, G, r2.
  split; [exact E|]. split; [exact EL|]. split; [exact E2|]. rewrite RG. split; [apply map_length|]. intros i d d' a Hd Hd' Ka.
  rewrite nth_error_map, Hd in Hd'. cbn [option_map] in Hd'. injection Hd' as <-.
  pose proof HC as (((HS & _) & _) & CL). pose proof HS as (_ & HP).
  destruct (opened_header t F HS) as (r' & E' & Sh & _). rewrite E in E'. apply Writer_Append.Ok_inj in E'. subst r'.
  pose proof (delivered_recs F (r_hdr r) keep HS) as HD. destruct (typed_format atof readraw t F c o HT HP) as (HFm & HRl).
  destruct (new_points t F c r r2 _ G HP Sh HD CL HFm HRl ED E2) as (PF2 & PW). destruct (PW d (nth_error_In _ _ Hd)) as (W1 & W2).
  pose proof HP as (HF & _). pose proof (u_at_range F 104 1 (proj1 HF)) as R0. assert (R3 : u_at F 104 1 <= 3) by apply HF.
  destruct (kept_range _ _ _ Ka ltac:(lia) HFm) as (RE & RN). destruct (attr_range (u_at F 104 1) a) as [[[s w] sg]|] eqn:ER; [|contradiction].
  assert (PF1 : p_format (mkPoint d (r_hdr r)) = u_at F 104 1) by apply Sh.
  rewrite (api_get_spec _ a s w sg W1) by (rewrite PF1; exact ER).
  rewrite (api_get_spec _ a s w sg W2) by (change (p_format _) with (p_format (mkPoint [] (r_hdr r2))); rewrite PF2; now symmetry).
  exists (decode_bits sg w (bits_at (rec_int (mkPoint d (r_hdr r))) s w)). split; [reflexivity|]. f_equal. f_equal. unfold rec_int. cbn [p_data].
  destruct (range_in (format_after F c) a s w sg HFm ltac:(now symmetry)) as (S0 & W0 & SW). destruct HD as (D & _). rewrite Forall_forall in D. destruct (D d (nth_error_In _ _ Hd)) as (B & L).
  apply cut_bits; try assumption; rewrite ?HRl in *; pose proof (std_length_small (format_after F c)); lia.
Qed.
Print Assumptions C74_attributes.

(** ... but the others are not: going to format 2 from a format with GPS times, the
    colours of the new file are bytes of the time. *)
Theorem C74_colors_refuted : forall atof readraw t F c o keep fuel, real_tool t -> typed_as atof readraw t c o -> changeable F c ->
  filterable F keep -> (Z.to_nat (f_npts F) < fuel)%nat -> has_time (u_at F 104 1) = true -> c_format c = Some 2 ->
  exists r G r2, reader_open (t_xml t) (t_doy t) (t_year t) F = Ok r /\
    las2las_edit atof readraw t o 0 0 (the_filter keep) tt fuel F = Ok [G] /\ reader_open (t_xml t) (t_doy t) (t_year t) G = Ok r2 /\
    forall i d d', nth_error (delivered F (r_hdr r) keep) i = Some d -> nth_error (records_from G 0) i = Some d' ->
      exists tm, api_get ATime (mkPoint d (r_hdr r)) = Ok tm /\
        api_get ARed (mkPoint d' (r_hdr r2)) = Ok (tm mod 2 ^ 16) /\ api_get AGreen (mkPoint d' (r_hdr r2)) = Ok ((tm / 2 ^ 16) mod 2 ^ 16) /\
        api_get ABlue (mkPoint d' (r_hdr r2)) = Ok ((tm / 2 ^ 32) mod 2 ^ 16).
Proof.
  intros atof readraw t F c o keep fuel TT HT HC HK Hf HTm C2. destruct (C74_edit_partial atof readraw t F c o keep fuel TT HT HC HK Hf) as (r & G & E & EL & ED).
  pose proof ED as (ST & RG & _). destruct (opened_header t G ST) as (r2 & E2 & _). exists r, G, r2.
  split; [exact E|]. split; [exact EL|]. split; [exact E2|]. intros i d d' Hd Hd'.
  rewrite RG, nth_error_map, Hd in Hd'. cbn [option_map] in Hd'. injection Hd' as <-.
  pose proof HC as (((HS & _) & _) & CL). pose proof HS as (_ & HP).
  destruct (opened_header t F HS) as (r' & E' & Sh & _). rewrite E in E'. apply Writer_Append.Ok_inj in E'. subst r'.
  pose proof (delivered_recs F (r_hdr r) keep HS) as HD. destruct (typed_format atof readraw t F c o HT HP) as (HFm & HRl).
  destruct (new_points t F c r r2 _ G HP Sh HD CL HFm HRl ED E2) as (PF2 & PW). destruct (PW d (nth_error_In _ _ Hd)) as (W1 & W2).
  assert (F2 : format_after F c = 2) by (unfold format_after; rewrite C2; reflexivity). rewrite F2 in *.
  assert (PF1 : p_format (mkPoint d (r_hdr r)) = u_at F 104 1) by apply Sh.
  destruct HD as (D & _). rewrite Forall_forall in D. destruct (D d (nth_error_In _ _ Hd)) as (B & L).
  assert (AT : attr_range (p_format (mkPoint d (r_hdr r))) ATime = Some (160, 64, false)) by (rewrite PF1; cbn [attr_range]; unfold has_time in HTm; now rewrite HTm).
  pose proof (api_get_spec _ ATime _ _ _ W1 AT) as GT. cbn [decode_bits] in GT. unfold rec_int in GT. cbn [p_data] in GT.
  exists (bits_at (le_dec d) 160 64). split; [exact GT|].
  change (std_length 2) with 26 in HRl. rewrite HRl in *.
  assert (P2 : forall a, p_format (mkPoint (firstn (Z.to_nat 26) d) (r_hdr r2)) = 2 /\ a = a :> Z) by (intros; split; [exact PF2|reflexivity]). destruct (P2 0) as (P2' & _). clear P2.
  assert (CB : forall s, 0 <= s -> s + 16 <= 208 -> bits_at (le_dec (firstn (Z.to_nat 26) d)) s 16 = bits_at (le_dec d) s 16) by (intros s S1 S2; apply cut_bits; try assumption; lia).
  assert (BB : forall k, 0 <= k -> k + 16 <= 64 -> bits_at (bits_at (le_dec d) 160 64) k 16 = bits_at (le_dec d) (160 + k) 16) by (intros k K1 K2; apply bits_at_bits_at; lia).
  assert (B0 : forall x, x mod 2 ^ 16 = bits_at x 0 16) by (intros; unfold bits_at; change (2 ^ 0) with 1; now rewrite Z.div_1_r).
  split; [|split].
  - rewrite (api_get_spec _ ARed 160 16 false W2) by (rewrite P2'; reflexivity). cbn [decode_bits]. f_equal. unfold rec_int. cbn [p_data]. rewrite CB by lia. rewrite B0, BB by lia. reflexivity.
  - rewrite (api_get_spec _ AGreen 176 16 false W2) by (rewrite P2'; reflexivity). cbn [decode_bits]. f_equal. unfold rec_int. cbn [p_data]. rewrite CB by lia. rewrite (B0 (_ / _)).
    replace (bits_at (bits_at (le_dec d) 160 64 / 2 ^ 16) 0 16) with (bits_at (bits_at (le_dec d) 160 64) 16 16) by (rewrite <- B0; reflexivity). rewrite BB by lia. reflexivity.
  - rewrite (api_get_spec _ ABlue 192 16 false W2) by (rewrite P2'; reflexivity). cbn [decode_bits]. f_equal. unfold rec_int. cbn [p_data]. rewrite CB by lia. rewrite (B0 (_ / _)).
    replace (bits_at (bits_at (le_dec d) 160 64 / 2 ^ 32) 0 16) with (bits_at (bits_at (le_dec d) 160 64) 32 16) by (rewrite <- B0; reflexivity). rewrite BB by lia. reflexivity.
Qed.
Print Assumptions C74_colors_refuted.

(** Scale and offset: the stored integers stay, so the points move. *)
Theorem C74_scale_refuted : forall atof readraw t F c o keep fuel, real_tool t -> typed_as atof readraw t c o -> changeable F c ->
  filterable F keep -> (Z.to_nat (f_npts F) < fuel)%nat -> c_format c = None ->
  exists r G, reader_open (t_xml t) (t_doy t) (t_year t) F = Ok r /\
    las2las_edit atof readraw t o 0 0 (the_filter keep) tt fuel F = Ok [G] /\
    records_from G 0 = delivered F (r_hdr r) keep /\
    ph_scale (pub_of_file G) = or_else (option_map bits3 (c_scale c)) (ph_scale (pub_of_file F)) /\
    ph_offset (pub_of_file G) = or_else (option_map bits3 (c_offset c)) (ph_offset (pub_of_file F)) /\
    (delivered F (r_hdr r) keep <> [] -> bounds_of (points_of (r_hdr r) (delivered F (r_hdr r) keep)) (ph_max (pub_of_file G)) (ph_min (pub_of_file G))).
Proof.
  intros atof readraw t F c o keep fuel TT HT HC HK Hf C0. destruct (C74_edit_partial atof readraw t F c o keep fuel TT HT HC HK Hf) as (r & G & E & EL & ED).
  exists r, G. split; [exact E|]. split; [exact EL|]. destruct ED as (ST & RG & _ & _ & P0 & P1). set (ds := delivered F (r_hdr r) keep) in *.
  pose proof HC as (((HS & _) & _) & CL). pose proof (delivered_recs F (r_hdr r) keep HS) as (D & _). fold ds in D.
  split.
  { rewrite RG. unfold reclen_after. rewrite C0. cbn [or_else option_map]. rewrite <- (map_id ds) at 2. apply map_ext_in. intros d Hd. rewrite Forall_forall in D. destruct (D d Hd) as (_ & L). apply firstn_all2. lia. }
  assert (D0 : ds = [] \/ ds <> []) by (destruct ds; [left; reflexivity|right; discriminate]). destruct D0 as [D0|D0].
  - rewrite (P0 D0). unfold lossy. destruct (_ =? _); (split; [reflexivity|split; [reflexivity|intros; contradiction]]).
  - destruct (P1 D0) as (mx & mn & rns & BO & _ & ->). unfold lossy. destruct (_ =? _); (split; [reflexivity|split; [reflexivity|intros _; exact BO]]).
Qed.
Print Assumptions C74_scale_refuted.

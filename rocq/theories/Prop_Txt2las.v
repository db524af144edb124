(** C72: txt2las, from the characters of the text to the bytes of the LAS file.

    Vocabulary: Txt2las_Spec.v (tables, which texts fit which column, [record_of_row]: the
    LAS record a row stands for), Txt_Spec.v ([number], [line]), Cols_Spec.v ([field],
    [raw_value]), IO_Spec.v ([u_at]), Prop_Rewrite.v ([standard]). *)
From Coq Require Import ZArith List Bool String Ascii Lia Reals Lra FunctionalExtensionality.
Import ListNotations.
From Flocq Require Import Core BinarySingleNaN Binary Bits.
From Verif Require Import Outcome Bytes CStr Float64 Float64_Proofs Schema_Model Schema_Spec Header_Model Vlr_Model Point_Model Point_Spec Point_Api Point_Proofs Stream_Model Writer_Model IO_Spec Writer_Api Writer_Append
  Writer_File Writer_RT IO_Round Reader_Spec Reader_Proofs Rewrite_Proofs Prop_Reader Prop_Rewrite
  Coord_Api Cols_Spec Bounds_Proofs Coord_Proofs Reader_Api Txt_Model Txt_Spec Txt_Prec Txt_Proofs Prop_Txt Txt2las_Trip Txt2las_Model Txt2las_Spec Txt2las_Text Txt2las_Fields Txt2las_Point Txt2las_Head Txt2las_Run Txt2las_File.
Local Open Scope list_scope.
Local Open Scope Z_scope.
Local Notation length := List.length (only parsing).

Lemma written_returns sv h ps : fresh_ok sv h -> 0 <= get_format h < 256 -> Z.of_nat (length ps) < 2 ^ 32 -> let F := file_image sv h ps in
  [u_at F 111 4; u_at F 115 4; u_at F 119 4; u_at F 123 4; u_at F 127 4] = firstn 5 (h_byret h).
Proof.
  intros HF Hf Hn F. pose proof (pub_of_written sv h ps HF Hf) as P. fold F in P. rewrite (expected_pub_ok sv h (Z.of_nat (length ps)) HF ltac:(lia)) in P.
  apply (f_equal ph_returns) in P. exact P.
Qed.
Lemma written_scaling sv h ps : fresh_ok sv h -> 0 <= get_format h < 256 -> Z.of_nat (length ps) < 2 ^ 32 -> let F := file_image sv h ps in
  forall ax, file_scale F ax = axis_of (h_scale h) ax /\ file_offset F ax = axis_of (h_offset h) ax.
Proof.
  intros HF Hf Hn F ax. destruct (written_fields sv h ps HF Hf Hn) as (_&_&_&_&_&_&_&_&_&E1&E2). fold F in E1, E2.
  unfold file_scale, file_offset. unfold bits3 in E1, E2.
  pose proof (f_equal (fun t => fst (fst t)) E1) as A1. pose proof (f_equal (fun t => snd (fst t)) E1) as A2. pose proof (f_equal snd E1) as A3.
  pose proof (f_equal (fun t => fst (fst t)) E2) as B1. pose proof (f_equal (fun t => snd (fst t)) E2) as B2. pose proof (f_equal snd E2) as B3.
  cbn [fst snd] in *. destruct ax; cbn [place axis_of].
  - change (131 + 8 * 0)%nat with 131%nat. change (155 + 8 * 0)%nat with 155%nat. rewrite A1, B1, !f64_of_bits_bits. auto.
  - change (131 + 8 * 1)%nat with 139%nat. change (155 + 8 * 1)%nat with 163%nat. rewrite A2, B2, !f64_of_bits_bits. auto.
  - change (131 + 8 * 2)%nat with 147%nat. change (155 + 8 * 2)%nat with 171%nat. rewrite A3, B3, !f64_of_bits_bits. auto.
Qed.
Lemma pad_small m : (length (pad_sig m) <= 2)%nat.
Proof. unfold pad_sig. destruct (m =? 0); cbn; lia. Qed.
Lemma f2_map_nth {A B} (R : A -> B -> Prop) (l : list A) (f : nat -> B) : (forall i x, nth_error l i = Some x -> R x (f i)) -> Forall2 R l (map f (seq 0 (length l))).
Proof.
  revert f. induction l as [|a l IH]; intros f H; [constructor|]. cbn [List.length seq map]. constructor; [apply (H 0%nat); reflexivity|].
  rewrite <- seq_shift, map_map. apply IH. intros i x X. apply (H (S i)). exact X.
Qed.

(** Every row becomes one record, in the order of the text. *)
Theorem C72_points : forall lf flt sv doy year junk junk_time o d rows, reads_doubles lf -> reads_floats flt -> id_fits (o_sys o) -> id_fits (o_soft o) -> 0 <= o_minor o <= 2 ->
  good_table (o_scale o) (o_offset o) (o_parse o) d rows ->
  exists F, txt2las lf flt sv doy year junk junk_time o (table_text d rows) = Ok (Some F) /\ standard F /\
    f_npts F = Z.of_nat (length rows) /\ fmt F = format_of (o_parse o) /\ f_reclen F = format_bytes (fmt F) /\ u_at F 24 1 = 1 /\ u_at F 25 1 = (if 2 <=? fmt F then 2 else o_minor o) /\
    (forall ax, file_scale F ax = axis_of (o_scale o) ax /\ file_offset F ax = axis_of (o_offset o) ax) /\
    (forall k, (1 <= k <= 5)%nat -> u_at F (107 + 4 * k) 4 = returns F (Z.of_nat k)) /\
    Forall2 (record_of_row F (o_scale o) (o_offset o) (o_parse o)) rows (records_from F 0).
Proof.
  intros lf flt sv doy year junk jt o d rows RD RF I1 I2 MN G. destruct (txt2las_writes lf flt sv doy year junk jt o d rows RD RF I1 I2 MN G) as (h & qs & HF & FQ & E & FM & RL & SG & VJ & VN & SC & OF & WV & BR & HS & FIT & BY & LEN).
  destruct G as (SF & DL & HX & NE & NB & FR).
  assert (LQ : length qs = length rows) by (clear - FQ; induction FQ; cbn [List.length]; congruence).
  assert (NQ : Z.of_nat (length qs) < 2 ^ 32) by (rewrite LQ; exact NB).
  pose proof (format_range (o_parse o)) as FG. pose proof (format_bytes_ge (format_of (o_parse o))) as BG.
  set (F := file_image sv h qs) in *.
  destruct (written_fields sv h qs HF ltac:(lia) NQ) as (_ & E24 & E25 & E94 & E96 & _ & E104 & E105 & E107 & _ & _). fold F in E24, E25, E94, E96, E104, E105, E107.
  pose proof (written_las_file sv h qs HF NQ BY SG VJ ltac:(rewrite VN; destruct (2 <=? _); lia) ltac:(lia)) as LF. fold F in LF.
  assert (NS : no_schema_vlr F) by (apply written_no_schema; [exact HF|exact NQ|lia|rewrite WV; constructor]).
  assert (FS : finite_scaling F) by (apply written_finite; [exact HF|exact NQ|lia|rewrite SC, OF; apply scaling_finite; exact SF]).
  assert (CP : complete F) by (apply written_complete; [exact HF|lia|exact NQ|exact FIT|lia]).
  assert (REC : forall i q, nth_error qs i = Some q -> file_record F (Z.of_nat i) = p_data q).
  { intros i q Q. unfold F. rewrite (written_record sv h qs i q HF ltac:(lia) NQ FIT ltac:(lia) Q). unfold record_of. apply firstn_all2. rewrite Forall_forall in LEN. specialize (LEN q (nth_error_In _ _ Q)). lia. }
  assert (NP : f_npts F = Z.of_nat (length rows)) by (unfold f_npts; rewrite E107, LQ; reflexivity).
  assert (FE : fmt F = format_of (o_parse o)) by (unfold fmt; rewrite E104; exact FM).
  assert (ROWS : Forall2 (record_of_row F (o_scale o) (o_offset o) (o_parse o)) rows (records_from F 0)).
  { unfold records_from. rewrite NP, Z.sub_0_r, Nat2Z.id. apply f2_map_nth. intros i row R.
    assert (X : exists q, nth_error qs i = Some q /\ row_point (o_scale o) (o_offset o) (o_parse o) h row q).
    { clear - FQ R. revert i R. induction FQ as [|a b l l' H FQ IH]; intros [|i] R; try discriminate; [injection R as <-; exists b; auto|exact (IH i R)]. }
    destruct X as (q & Q & RP). rewrite Z.add_0_l, (REC i q Q). rewrite Forall_forall in FR. destruct (FR row (nth_error_In _ _ R)) as (CF & _).
    apply (row_record F h _ _ _ row q RP CF (fits_row _ _ _ _ SF CF)); [unfold fmt; now rewrite E104|exact FM]. }
  exists F. split; [exact E|]. split.
  { split; [exact (conj LF (conj NS (conj FS CP)))|]. destruct (written_vlrs_read sv h qs HF ltac:(lia) NQ) as (V1 & V2 & _). fold F in V1, V2.
    split; [exact LF|]. split; [exact NS|]. split; [unfold f_reclen; rewrite E105, E104, FM; exact RL|]. split; [rewrite V1, WV; constructor|]. split; [rewrite E94, HS; lia|].
    unfold f_doff. rewrite E96, V2. unfold fresh_doff. rewrite WV, HS. change (vlrs_size []) with 0. pose proof (pad_small (h_vmin h)). split; lia. }
  split; [exact NP|]. split; [exact FE|]. split; [unfold f_reclen; rewrite E105, FE; exact RL|]. split; [rewrite E24; exact VJ|]. split; [rewrite E25, FE; exact VN|].
  split. { intros ax. pose proof (written_scaling sv h qs HF ltac:(lia) NQ ax) as W. fold F in W. rewrite SC, OF in W. exact W. }
  split; [|exact ROWS]. intros k K. pose proof (written_returns sv h qs HF ltac:(lia) NQ) as W. fold F in W. cbv zeta in W. rewrite BR in W.
  assert (CR : forall j, count_ret (o_parse o) rows j = returns F j).
  { intros j. unfold count_ret, returns. f_equal. refine (f2_filter _ _ _ _ _ _ ROWS). intros row rec (_ & RS & _). specialize (RS "r"%char AReturnNumber 0 7 eq_refl).
    change (value F AReturnNumber rec) with (field (fmt F) AReturnNumber rec) in RS. f_equal. unfold ret. destruct (last_text "r"%char (o_parse o) row) as [t|]; [|symmetry; exact RS]. unfold numv. now rewrite RS. }
  rewrite <- CR. assert (KK : k = 1%nat \/ k = 2%nat \/ k = 3%nat \/ k = 4%nat \/ k = 5%nat) by lia.
  assert (N : forall i, nth i [u_at F 111 4; u_at F 115 4; u_at F 119 4; u_at F 123 4; u_at F 127 4] 0 = nth i (map (count_ret (o_parse o) rows) [1; 2; 3; 4; 5]) 0) by (intros i; now rewrite W).
  destruct KK as [->|[->|[->|[->| ->]]]]; [exact (N 0%nat)|exact (N 1%nat)|exact (N 2%nat)|exact (N 3%nat)|exact (N 4%nat)].
Qed.

(** Printed by las2txt and read back with the same letters, scales and offsets: the same
    whole numbers for the coordinates, the same fields (of the class its last five bits). *)
Theorem C72_round_trip : forall lg lf flt xml sv doy year junk junk_time parse delim fuel F p K o,
  standard F -> log10_ok lg -> reads_doubles lf -> reads_floats flt -> decimal_file F p K -> 0 < f_npts F -> (Z.to_nat (f_npts F) < fuel)%nat ->
  (forall c, In c parse -> In c (list_ascii_of_string "xyzianrcupedRGB")) -> (forall c, In c ["x"; "y"; "z"]%char -> In c parse) ->
  (forall d, Prop_Txt.delimiter delim d -> delimiter d) ->
  (forall rec ax, In rec (records_from F 0) -> Z.abs (raw_value (raw_attr ax) rec) <= 2147483645) ->
  o_parse o = parse -> o_scale o = scales F -> o_offset o = offsets F -> id_fits (o_sys o) -> id_fits (o_soft o) -> 0 <= o_minor o <= 2 ->
  exists text, las2txt lg xml doy year no_filter parse delim None false fuel F = Ok text /\
    ((forall l, In l (split_on nl text) -> (length l <= 510)%nat) ->
     exists G, txt2las lf flt sv doy year junk junk_time o text = Ok (Some G) /\ standard G /\ f_npts G = f_npts F /\
       (forall ax, file_scale G ax = file_scale F ax /\ file_offset G ax = file_offset F ax) /\
       Forall2 (same_columns F G parse) (records_from F 0) (records_from G 0)).
Proof.
  intros lg lf flt xml sv doy year junk jt parse delim fuel F p K o HS LG RD RF DF N0 FU TL HX DL SM EP ES EO I1 I2 MN.
  assert (PR : forall ax, exists q, stream_precision lg (file_scale F ax) = Ok (Z.of_nat q) /\ (q = p ax \/ q = S (p ax))).
  { intros ax. destruct (DF ax) as (P & _ & C & _). apply precision_decimal; [exact LG|lia|exact C]. }
  destruct (PR AxX) as (qx & EX & QX), (PR AxY) as (qy & EY & QY), (PR AxZ) as (qz & EZ & QZ).
  assert (DU : decimals_used lg None F (qx, qy, qz, 8%nat)).
  { exists (Z.of_nat qx), (Z.of_nat qy), (Z.of_nat qz). rewrite !Nat2Z.id. auto. }
  assert (NP : parse <> []). { intros ->. destruct (HX "x"%char); cbn; auto. }
  destruct (C71_lines lg xml doy year parse delim None _ false fuel F HS NP DU FU) as (d & rows & DD & EL & LR & T). cbn [app] in EL.
  specialize (DL d DD). exists (List.concat (map (line d) rows)). split; [exact EL|]. intros LL.
  assert (DQ : forall ax, decimals (qx, qy, qz, 8%nat) (axis_letter ax) = p ax \/ decimals (qx, qy, qz, 8%nat) (axis_letter ax) = S (p ax)) by (intros []; assumption).
  assert (SF : scaling_fits (scales F) (offsets F)).
  { intros ax. rewrite scales_axis, offsets_axis. destruct (DF ax) as (P1 & K1 & C1 & C2). exact (trip_scaling _ _ (p ax) (K ax) P1 C1 C2 K1). }
  assert (LEN : length (records_from F 0) = Z.to_nat (f_npts F)) by (unfold records_from; rewrite map_length, seq_length; lia).
  assert (RT : forall i row, nth_error rows i = Some row -> exists rec, nth_error (records_from F 0) i = Some rec /\ In rec (records_from F 0) /\ Forall2 (prints F (qx, qy, qz, 8%nat) (Z.of_nat i) rec) parse row).
  { intros i row R. destruct (nth_error (records_from F 0) i) as [rec|] eqn:E; [|apply nth_error_None in E; assert (X : nth_error rows i <> None) by congruence; apply nth_error_Some in X; lia].
    exists rec. split; [reflexivity|]. split; [exact (nth_error_In _ _ E)|exact (T i rec row E R)]. }
  assert (FT : Forall (fun row => Forall2 (column_fits (scales F) (offsets F)) parse row) rows).
  { apply Forall_forall. intros row R. apply In_nth_error in R. destruct R as (i & R). destruct (RT i row R) as (rec & _ & IR & P).
    assert (G : forall q r, (forall c, In c q -> In c parse) -> Forall2 (prints F (qx, qy, qz, 8%nat) (Z.of_nat i) rec) q r -> Forall2 (column_fits (scales F) (offsets F)) q r).
    { intros q r SB X. induction X as [|c t q r X1 X IH]; [constructor|]. constructor; [|apply IH; intros b B; apply SB; now right].
      apply (trip_fits F _ p K (Z.of_nat i) rec c t DF DQ); [intros ax; exact (SM rec ax IR)|apply TL, SB; now left|exact X1]. }
    exact (G parse row (fun c H => H) P). }
  assert (CT : Forall (Forall cell_text) rows) by (eapply Forall_impl; [|exact FT]; intros row A; exact (cells_of _ _ (fits_row _ _ _ _ SF A))).
  assert (GT : good_table (o_scale o) (o_offset o) (o_parse o) d rows).
  { rewrite ES, EO, EP. split; [exact SF|]. split; [exact DL|]. split; [exact HX|]. split; [intros ->; cbn [List.length] in LR; lia|]. split.
    { rewrite LR, LEN, Z2Nat.id by lia. unfold f_npts. pose proof (u_at_range F 107 4) as U. change (pow256 4) with (2 ^ 32) in U. apply U. exact (proj1 (proj1 (proj1 HS))). }
    apply Forall_forall. intros row R. rewrite Forall_forall in FT, CT. split; [exact (FT row R)|]. unfold line. rewrite app_length. cbn [List.length].
    assert (X : In (join d row) (split_on nl (List.concat (map (line d) rows)))).
    { change nl with Txt_Model.newline. rewrite (split_lines rows d). { apply in_or_app. left. now apply in_map. } intros r Hr X. assert (Y : In (ascii_of_nat 10) (join d r)) by exact X. exact (proj1 (line_chars _ d r DL (CT r Hr) Y) eq_refl). }
    specialize (LL _ X). lia. }
  destruct (C72_points lf flt sv doy year junk jt o d rows RD RF I1 I2 MN GT) as (G & EG & SG & NG & _ & _ & _ & _ & SCG & _ & RG).
  exists G. split; [exact EG|]. split; [exact SG|]. split; [rewrite NG, LR, LEN; lia|]. split; [intros ax; destruct (SCG ax) as (-> & ->); rewrite ES, EO, scales_axis, offsets_axis; auto|].
  rewrite ES, EO, EP in RG. clear - RG RT DF DQ SM LR. assert (A : forall i rec row, nth_error (records_from F 0) i = Some rec -> nth_error rows i = Some row -> In rec (records_from F 0) /\ Forall2 (prints F (qx, qy, qz, 8%nat) (Z.of_nat i) rec) parse row).
  { intros i rec row E1 E2. destruct (RT i row E2) as (rec' & E3 & IR & P). rewrite E1 in E3. injection E3 as <-. auto. } clear RT.
  assert (B : forall k l rows' recs', length rows' = length l -> (forall i rec row, nth_error l i = Some rec -> nth_error rows' i = Some row -> In rec (records_from F 0) /\ Forall2 (prints F (qx, qy, qz, 8%nat) (Z.of_nat (k + i)) rec) parse row) ->
    Forall2 (record_of_row G (scales F) (offsets F) parse) rows' recs' -> Forall2 (same_columns F G parse) l recs').
  { intros k l rows' recs'. revert k l rows'. induction recs' as [|rec' recs' IH]; intros k l rows' L H X; inversion X as [|row ? rows2 ? X1 X2]; subst; destruct l as [|rec l]; try discriminate L; [constructor|]. constructor.
    - destruct (H 0%nat rec row eq_refl eq_refl) as (IR & P). exact (trip_same F G _ p K _ rec rec' parse row DF DQ (fun ax => SM rec ax IR) P X1).
    - apply (IH (S k) l rows2); [cbn [List.length] in L; lia| |exact X2]. intros i r w E1 E2. replace (S k + i)%nat with (k + S i)%nat by lia. exact (H (S i) r w E1 E2). }
  exact (B 0%nat (records_from F 0) rows (records_from G 0) LR A RG).
Qed.

(** ** There are such scanners *)
Definition round_double (x : R) : f64 :=
  let r := rnd64 x in binary_normalize 53 1024 prec53_gt_0 prec53_lt_emax mode_NE (Ztrunc (scaled_mantissa radix2 (SpecFloat.fexp 53 1024) r)) (cexp radix2 (SpecFloat.fexp 53 1024) r) false.
Lemma round_double_ok x : (Rabs x <= bpow radix2 1000)%R -> f64_fin (round_double x) = true /\ f64_R (round_double x) = nearest_double x.
Proof.
  intros B. unfold round_double. set (r := rnd64 x). cbv zeta.
  assert (G : generic_format radix2 (SpecFloat.fexp 53 1024) r) by (apply generic_format_round; [apply fexp_correct; reflexivity|apply valid_rnd_N]).
  assert (BR : (Rabs r < bpow radix2 1024)%R).
  { apply Rle_lt_trans with (bpow radix2 1000); [|apply bpow_lt; lia]. unfold r, rnd64. apply abs_round_le_generic; [apply fexp_correct; reflexivity|apply valid_rnd_N| |exact B].
    apply generic_format_bpow. vm_compute. discriminate. }
  pose proof (binary_normalize_correct 53 1024 prec53_gt_0 prec53_lt_emax mode_NE (Ztrunc (scaled_mantissa radix2 (SpecFloat.fexp 53 1024) r)) (cexp radix2 (SpecFloat.fexp 53 1024) r) false) as C.
  unfold generic_format in G. rewrite <- G in C.
  assert (RR : round radix2 (SpecFloat.fexp 53 1024) (round_mode mode_NE) r = r) by (apply round_generic; [apply valid_rnd_N|exact G]).
  rewrite RR in C. rewrite Rlt_bool_true in C by exact BR. destruct C as (C1 & C2 & _). split; [exact C2|]. unfold f64_R. rewrite C1. reflexivity.
Qed.
Definition scan_number (t : list ascii) : option f64 := match decimal (take_while number_char t) with Some x => Some (round_double x) | None => None end.
Lemma take_number t rest : (forall c, In c t -> number_char c = true) -> ends rest -> take_while number_char (t ++ rest) = t.
Proof.
  intros H E. induction t as [|c t IH]; cbn [app take_while].
  - destruct rest as [|c rest]; [reflexivity|]. cbn [take_while]. replace (number_char c) with false; [reflexivity|]. destruct E as [[->|[->| ->]]| ->]; reflexivity.
  - rewrite (H c) by now left. f_equal. apply IH. intros x X. apply H. now right.
Qed.
Theorem C72_scanners : reads_doubles scan_number /\ reads_floats scan_number.
Proof.
  split.
  - intros t rest x D E B. exists (round_double x). unfold decimal in D. destruct (number t) as [[m q]|] eqn:N; [|discriminate]. unfold scan_number.
    rewrite take_number; [|exact (proj2 (number_chars_ok t m q N))|exact E]. unfold decimal. rewrite N. injection D as ->. split; [reflexivity|now apply round_double_ok].
  - intros t rest n N E B. assert (BX : (Rabs (IZR n) <= bpow radix2 24)%R) by (rewrite <- abs_IZR; apply IZR_le; exact B).
    exists (round_double (IZR n)). unfold scan_number. rewrite take_number; [|exact (proj2 (number_chars_ok t n O N))|exact E]. unfold decimal. rewrite N. cbn [pow]. replace (IZR n / 1)%R with (IZR n) by lra.
    split; [reflexivity|]. destruct (round_double_ok (IZR n)) as (R1 & R2); [eapply Rle_trans; [exact BX|apply bpow_le; lia]|]. split; [exact R1|]. rewrite R2. unfold nearest_double.
    apply round_generic; [apply valid_rnd_N|]. apply generic_format_FLT. exists (Float radix2 n 0); cbn [Fnum Fexp]; [unfold F2R; cbn [Fnum Fexp bpow]; ring|change (Z.abs n < 9007199254740992); change (2 ^ 24) with 16777216 in B; lia|lia].
Qed.

(** ** A table *)
Definition cells (s : list string) : list (list ascii) := map list_ascii_of_string s.
Definition sample_rows : list (list (list ascii)) := [cells ["-1.25"; "2"; "3.75"; "1"; "200"]; cells ["4"; "-0.5"; "0"; "2"; "7"]]%string.
Definition one3 : f64x3 := (f64_one, f64_one, f64_one).
Definition zero3 : f64x3 := (f64_of_Z 0, f64_of_Z 0, f64_of_Z 0).
Definition opts (p : string) : options := mkOpt (list_ascii_of_string p) one3 zero3 2 1 2010 None None.
Lemma one_R : f64_fin f64_one = true /\ f64_R f64_one = 1%R.
Proof. split; [vm_compute; reflexivity|]. unfold f64_R. rewrite <- FF2R_B2FF. match goal with |- context [B2FF ?p ?e ?x] => let v := eval vm_compute in (B2FF p e x) in change (B2FF p e x) with v end. unfold FF2R, F2R. cbn [Fnum Fexp cond_Zopp Z.opp]. change (bpow radix2 (-52)) with (/ IZR 4503599627370496)%R. lra. Qed.
Lemma zero_R : f64_fin (f64_of_Z 0) = true /\ f64_R (f64_of_Z 0) = 0%R.
Proof. split; [vm_compute; reflexivity|]. unfold f64_R. rewrite <- FF2R_B2FF. match goal with |- context [B2FF ?p ?e ?x] => let v := eval vm_compute in (B2FF p e x) in change (B2FF p e x) with v end. reflexivity. Qed.
Lemma unit_fits : scaling_fits one3 zero3.
Proof.
  assert (A : scale_ok f64_one /\ f64_fin (f64_of_Z 0) = true /\ (Rabs (f64_R (f64_of_Z 0)) <= 1125899906842624 * Rabs (f64_R f64_one))%R).
  { destruct one_R as (O1 & O2), zero_R as (Z1 & Z2). split; [|split; [exact Z1|rewrite Z2, O2, Rabs_R0, Rabs_R1; lra]]. split; [exact O1|]. rewrite O2, Rabs_R1. split; [apply (bpow_le radix2 (-900) 0); lia|apply (bpow_le radix2 0 900); lia]. }
  intros []; exact A.
Qed.
Lemma unit_coord ax t m q : number t = Some (m, q) -> Z.abs m <= 2147483646 -> exists x, decimal t = Some x /\ (Rabs (x - f64_R (axis_of zero3 ax)) <= 2147483646 * Rabs (f64_R (axis_of one3 ax)))%R.
Proof.
  intros N B. exists (IZR m / 10 ^ q)%R. unfold decimal. rewrite N. split; [reflexivity|]. replace (axis_of zero3 ax) with (f64_of_Z 0) by (destruct ax; reflexivity). replace (axis_of one3 ax) with f64_one by (destruct ax; reflexivity).
  rewrite (proj2 one_R), (proj2 zero_R), Rabs_R1, Rminus_0_r, Rmult_1_r. unfold Rdiv. rewrite Rabs_mult.
  assert (P1 : (1 <= 10 ^ q)%R) by (apply pow_R1_Rle; lra). assert (P2 : (0 < / 10 ^ q <= 1)%R) by (split; [apply Rinv_0_lt_compat; lra|rewrite <- Rinv_1; apply Rinv_le; lra]).
  rewrite (Rabs_pos_eq (/ 10 ^ q)) by lra. rewrite <- abs_IZR. assert (P3 : (0 <= IZR (Z.abs m) <= 2147483646)%R) by (split; [apply IZR_le, Z.abs_nonneg|apply IZR_le, B]). nra.
Qed.
Theorem C72_instance : good_table one3 zero3 (list_ascii_of_string "xyzri") [","%char] sample_rows /\ reads_doubles scan_number /\ reads_floats scan_number /\ id_fits (o_sys (opts "xyzri")) /\ 0 <= o_minor (opts "xyzri") <= 2.
Proof.
  split; [|split; [exact (proj1 C72_scanners)|split; [exact (proj2 C72_scanners)|split; [exact I|cbn; lia]]]].
  split; [exact unit_fits|]. split. { split; [discriminate|]. intros c [<-|[]]. right. now left. } split; [cbn; intuition|]. split; [discriminate|]. split; [cbn; lia|].
  assert (CO : forall c ax t m q, double_letter c = Some ax -> number t = Some (m, q) -> Z.abs m <= 2147483646 -> column_fits one3 zero3 c t).
  { intros c ax t m q D N B. unfold column_fits. rewrite D. exact (unit_coord ax t m q N B). }
  assert (ST : forall c a lo hi t n, double_letter c = None -> stored_letter c = Some (a, lo, hi) -> number t = Some (n, O) -> lo <= n <= hi -> column_fits one3 zero3 c t).
  { intros c a lo hi t n D S N B. unfold column_fits. rewrite D, S. eauto. }
  apply Forall_cons; [split|apply Forall_cons; [split|apply Forall_nil]]; try (apply Nat.leb_le; vm_compute; reflexivity); cbn [cells map list_ascii_of_string].
  - apply Forall2_cons; [apply (CO _ AxX _ (-125) 2%nat); [reflexivity|vm_compute; reflexivity|lia]|]. apply Forall2_cons; [apply (CO _ AxY _ 2 0%nat); [reflexivity|vm_compute; reflexivity|lia]|].
    apply Forall2_cons; [apply (CO _ AxZ _ 375 2%nat); [reflexivity|vm_compute; reflexivity|lia]|]. apply Forall2_cons; [apply (ST _ AReturnNumber 0 7 _ 1); [reflexivity|reflexivity|vm_compute; reflexivity|lia]|].
    apply Forall2_cons; [apply (ST _ AIntensity 0 65535 _ 200); [reflexivity|reflexivity|vm_compute; reflexivity|lia]|]. apply Forall2_nil.
  - apply Forall2_cons; [apply (CO _ AxX _ 4 0%nat); [reflexivity|vm_compute; reflexivity|lia]|]. apply Forall2_cons; [apply (CO _ AxY _ (-5) 1%nat); [reflexivity|vm_compute; reflexivity|lia]|].
    apply Forall2_cons; [apply (CO _ AxZ _ 0 0%nat); [reflexivity|vm_compute; reflexivity|lia]|]. apply Forall2_cons; [apply (ST _ AReturnNumber 0 7 _ 2); [reflexivity|reflexivity|vm_compute; reflexivity|lia]|].
    apply Forall2_cons; [apply (ST _ AIntensity 0 65535 _ 7); [reflexivity|reflexivity|vm_compute; reflexivity|lia]|]. apply Forall2_nil.
Qed.

(** ** Runs on texts *)
Definition known (l : list (list ascii * f64)) (lf : list ascii -> option f64) (t : list ascii) : option f64 :=
  match find (fun e => if list_eq_dec Ascii.ascii_dec (fst e) t then true else false) l with Some (_, v) => Some v | None => lf t end.
Lemma known_same l lf : Forall (fun e => lf (fst e) = Some (snd e)) l -> known l lf = lf.
Proof.
  intros F. apply functional_extensionality. intros t. unfold known. destruct (find _ l) as [[u v]|] eqn:E; [|reflexivity].
  apply find_some in E. destruct E as (I & E). cbn [fst] in E. destruct (list_eq_dec Ascii.ascii_dec u t) as [->|]; [|discriminate]. rewrite Forall_forall in F. symmetry. exact (F _ I).
Qed.
Lemma strict x : f64_fin x = true -> f64_R x <> 0%R -> is_finite_strict 53 1024 x = true.
Proof. destruct x as [s|s|s p H|s m e H]; cbn; try discriminate; intros _ N; [contradiction N; reflexivity|reflexivity]. Qed.
Lemma reads_whole lf t rest z : reads_doubles lf -> number t = Some (z, O) -> ends rest -> z <> 0 -> Z.abs z <= 2 ^ 24 -> lf (t ++ rest) = Some (f64_of_Z z).
Proof.
  intros RD N E NZ B. assert (BX : (Rabs (IZR z) <= bpow radix2 24)%R) by (rewrite <- abs_IZR; apply IZR_le; exact B).
  destruct (RD t rest (IZR z)) as (v & L & Fv & Rv); [unfold decimal; rewrite N; cbn [pow]; f_equal; lra|exact E|eapply Rle_trans; [exact BX|apply bpow_le; lia]|].
  rewrite L. f_equal. destruct (Coord_Proofs.of_Z_ok z) as (FZ & RZ); [change (2 ^ 24) with 16777216 in B; change (2 ^ 53) with 9007199254740992; lia|].
  assert (EV : f64_R v = IZR z). { rewrite Rv. unfold nearest_double. apply round_generic; [apply valid_rnd_N|]. apply generic_format_FLT. exists (Float radix2 z 0); cbn [Fnum Fexp]; [unfold F2R; cbn [Fnum Fexp bpow]; ring|change (Z.abs z < 9007199254740992); change (2 ^ 24) with 16777216 in B; lia|lia]. }
  assert (NR : IZR z <> 0%R) by (intros X; apply eq_IZR in X; contradiction).
  apply (B2R_inj 53 1024); [apply strict; [exact Fv|rewrite EV; exact NR]|apply strict; [exact FZ|rewrite RZ; exact NR]|]. change (f64_R v = f64_R (f64_of_Z z)). congruence.
Qed.
Definition txt (s : string) : list ascii := list_ascii_of_string s ++ [nl].
(** the number [z] = [t] in front of [rest] *)
Definition at_number (t rest : string) (z : Z) : list ascii * f64 := (list_ascii_of_string t ++ list_ascii_of_string rest ++ [nl], f64_of_Z z).
Lemma at_ok lf t rest z : reads_doubles lf -> number (list_ascii_of_string t) = Some (z, O) -> ends (list_ascii_of_string rest ++ [nl]) -> z <> 0 -> Z.abs z <= 2 ^ 24 ->
  lf (fst (at_number t rest z)) = Some (snd (at_number t rest z)).
Proof. intros. cbn [fst snd at_number]. now apply reads_whole. Qed.
Ltac reads_them RD := repeat (apply Forall_cons; [apply (at_ok _ _ _ _ RD); [vm_compute; reflexivity|first [left; left; reflexivity|left; right; left; reflexivity|right; reflexivity]|discriminate|vm_compute; discriminate]|]); apply Forall_nil.

(** The bounding box is rounded towards zero: a table with negative coordinates gets a box
    that does not hold its points. *)
Theorem C72_negative_box_refuted : forall lf flt sv doy year junk junk_time, reads_doubles lf ->
  exists F, txt2las lf flt sv doy year junk junk_time (opts "xyz") (txt "-2 1 1") = Ok (Some F) /\
    map (raw_value ARawX) (records_from F 0) = [-2] /\ f64_of_bits (u_at F 187 8) = f64_of_Z (-1) /\ f64_of_bits (u_at F 179 8) = f64_of_Z (-1).
Proof.
  intros lf flt sv doy year junk jt RD. pose (l := [at_number "-2" " 1 1" (-2); at_number "1" " 1" 1; at_number "1" "" 1]).
  rewrite <- (known_same l lf) by (unfold l; reads_them RD). unfold l. clear. eexists. split; [vm_compute; reflexivity|].
  split; [vm_compute; reflexivity|]. split; apply B2FF_inj; vm_compute; reflexivity.
Qed.

(** A letter txt2las does not know (las2txt has M, X, Y, Z, C) is a column for the first pass
    and none for the second: box and points come from different columns. *)
Theorem C72_unknown_letter_refuted : forall lf flt sv doy year junk junk_time, reads_doubles lf ->
  exists F, txt2las lf flt sv doy year junk junk_time (opts "Mxyz") (txt "7 1 2 3") = Ok (Some F) /\
    map (fun rec => (raw_value ARawX rec, raw_value ARawY rec, raw_value ARawZ rec)) (records_from F 0) = [(7, 1, 2)] /\ 
    f64_of_bits (u_at F 187 8) = f64_of_Z 1 /\ f64_of_bits (u_at F 203 8) = f64_of_Z 2 /\ f64_of_bits (u_at F 219 8) = f64_of_Z 3.
Proof.
  intros lf flt sv doy year junk jt RD. pose (l := [at_number "7" " 1 2 3" 7; at_number "1" " 2 3" 1; at_number "2" " 3" 2; at_number "3" "" 3]).
  rewrite <- (known_same l lf) by (unfold l; reads_them RD). unfold l. clear. eexists. split; [vm_compute; reflexivity|].
  split; [vm_compute; reflexivity|]. repeat split; apply B2FF_inj; vm_compute; reflexivity.
Qed.

(** A long line is cut into several, and its parts are points. *)
Definition long_line : string := "1,1,1" ++ string_of_list_ascii (repeat " "%char 506) ++ "2,2,2".
Theorem C72_long_line_refuted : forall lf flt sv doy year junk junk_time, reads_doubles lf ->
  exists F, txt2las lf flt sv doy year junk junk_time (opts "xyz") (txt long_line) = Ok (Some F) /\
    ~ In nl (list_ascii_of_string long_line) /\ f_npts F = 2 /\ map (raw_value ARawX) (records_from F 0) = [1; 2].
Proof.
  intros lf flt sv doy year junk jt RD. pose (sp := repeat " "%char 506).
  pose (l := [(list_ascii_of_string "1,1,1" ++ sp, f64_of_Z 1); (list_ascii_of_string "1,1" ++ sp, f64_of_Z 1); (list_ascii_of_string "1" ++ sp, f64_of_Z 1); at_number "2" ",2,2" 2; at_number "2" ",2" 2; at_number "2" "" 2]).
  assert (A : forall t rest, number (list_ascii_of_string t) = Some (1, O) -> ends rest -> lf (list_ascii_of_string t ++ rest) = Some (f64_of_Z 1)) by (intros t rest N E; apply reads_whole; [exact RD|exact N|exact E|discriminate|vm_compute; discriminate]).
  rewrite <- (known_same l lf).
  2:{ unfold l. apply Forall_cons; [exact (A "1"%string (list_ascii_of_string ",1,1" ++ sp) eq_refl (or_introl (or_intror (or_introl eq_refl))))|].
      apply Forall_cons; [exact (A "1"%string (list_ascii_of_string ",1" ++ sp) eq_refl (or_introl (or_intror (or_introl eq_refl))))|].
      apply Forall_cons; [exact (A "1"%string sp eq_refl (or_introl (or_introl eq_refl)))|]. reads_them RD. }
  unfold l, sp. clear. eexists. split; [vm_compute; reflexivity|]. split; [|split; vm_compute; reflexivity].
  intros X. assert (Y : existsb (Ascii.eqb nl) (list_ascii_of_string long_line) = true) by (apply has_in; exact X). vm_compute in Y. discriminate.
Qed.

(** Without a letter for an axis its coordinate is what is left in memory. *)
Theorem C72_missing_axis_refuted : forall lf flt sv doy year junk_time, reads_doubles lf ->
  exists F G, txt2las lf flt sv doy year (f64_one, f64_one, f64_of_Z 5) junk_time (opts "xy") (txt "1 2") = Ok (Some F) /\
    txt2las lf flt sv doy year (f64_one, f64_one, f64_of_Z 6) junk_time (opts "xy") (txt "1 2") = Ok (Some G) /\
    map (raw_value ARawZ) (records_from F 0) = [5] /\ map (raw_value ARawZ) (records_from G 0) = [6].
Proof.
  intros lf flt sv doy year jt RD. pose (l := [at_number "1" " 2" 1; at_number "2" "" 2]).
  rewrite <- (known_same l lf) by (unfold l; reads_them RD). unfold l. clear. eexists _, _. split; [vm_compute; reflexivity|]. split; [vm_compute; reflexivity|]. split; vm_compute; reflexivity.
Qed.

(** The first pass looks at fewer columns: lines the second one rejects are in the counts
    by return and in the box. *)
Theorem C72_returns_refuted : forall lf flt sv doy year junk junk_time, reads_doubles lf ->
  exists F, txt2las lf flt sv doy year junk junk_time (opts "xyzru") (txt "9 1 1 1" ++ txt "1 1 1 1 5") = Ok (Some F) /\
    f_npts F = 1 /\ u_at F 111 4 = 2 /\ f64_of_bits (u_at F 179 8) = f64_of_Z 9 /\ map (raw_value ARawX) (records_from F 0) = [1].
Proof.
  intros lf flt sv doy year junk jt RD. pose (l := [at_number "9" " 1 1 1" 9; at_number "1" " 1 1" 1; at_number "1" " 1" 1; at_number "1" " 1 1 1 5" 1; at_number "1" " 1 1 5" 1; at_number "1" " 1 5" 1]).
  rewrite <- (known_same l lf) by (unfold l; reads_them RD). unfold l. clear. eexists. split; [vm_compute; reflexivity|].
  split; [vm_compute; reflexivity|]. split; [vm_compute; reflexivity|]. split; [apply B2FF_inj; vm_compute; reflexivity|vm_compute; reflexivity].
Qed.

(** No coordinate or return letter: the program reads in front of the string. *)
Theorem C72_no_letters_refuted : forall lf flt sv doy year junk junk_time o text, (forall c, In c (o_parse o) -> ~ In c ["x"; "y"; "z"; "r"]%char) ->
  txt2las lf flt sv doy year junk junk_time o text = UB UBOutOfBounds.
Proof.
  intros lf flt sv doy year junk jt o text N. unfold txt2las. destruct (new_header_plain doy year) as (dh & -> & _). cbn [obind].
  assert (A : forall l, (forall c, In c l -> c = "s"%char) -> strip l = UB UBOutOfBounds).
  { induction l as [|c l IH]; intros H; [reflexivity|]. cbn [strip]. rewrite (H c ltac:(now left)). cbn [Ascii.eqb Bool.eqb]. apply IH. intros b B. apply H. now right. }
  assert (E : parse_less (o_parse o) = UB UBOutOfBounds).
  { unfold parse_less. apply A. intros c C. apply in_rev in C. apply in_map_iff in C. destruct C as (b & <- & B). specialize (N b B). unfold less.
    destruct (existsb (Ascii.eqb b) ["x"; "y"; "z"; "r"]%char) eqn:X; [|reflexivity]. exfalso. apply N. now apply has_in. }
  rewrite E. reflexivity.
Qed.

(** The name made for the output overruns its buffer if less than three characters follow
    the last dot, or there is none. *)
Theorem C72_output_name : forall a b, ~ In "."%char b -> (0 < length a)%nat ->
  output_name (a ++ "."%char :: b) = if (length b <? 3)%nat then UB UBOutOfBounds else Ok (a ++ list_ascii_of_string ".las").
Proof.
  intros a b N A. unfold output_name.
  assert (L : forall n, (length a <= n)%nat -> (n <= length (a ++ "."%char :: b))%nat -> last_dot n (a ++ "."%char :: b) = length a).
  { induction n as [|n IH]; intros L1 L2; [lia|]. cbn [last_dot]. rewrite app_length in L2. cbn [List.length] in L2. destruct (Nat.eq_dec (S n) (length a)) as [E|E].
    - rewrite E, nth_error_app2, Nat.sub_diag by lia. reflexivity.
    - destruct (nth_error (a ++ "."%char :: b) (S n)) as [c|] eqn:X; [|apply IH; [lia|rewrite app_length; cbn [List.length]; lia]].
      rewrite nth_error_app2 in X by lia. replace (S n - length a)%nat with (S (S n - length a - 1)) in X by lia. cbn [nth_error] in X. apply nth_error_In in X.
      destruct (Ascii.eqb_spec c "."%char) as [->|]; [contradiction|]. apply IH; [lia|rewrite app_length; cbn [List.length]; lia]. }
  rewrite L by (rewrite ?app_length; cbn [List.length]; lia). rewrite app_length. cbn [List.length]. rewrite firstn_app, firstn_all, Nat.sub_diag. cbn [firstn]. rewrite app_nil_r.
  replace (length a + S (length b) <? length a + 4)%nat with (length b <? 3)%nat; [reflexivity|]. destruct (Nat.ltb_spec (length b) 3), (Nat.ltb_spec (length a + S (length b)) (length a + 4)); try reflexivity; lia.
Qed.

(** A system identifier of 31 characters overruns its buffer. *)
Theorem C72_long_id_refuted : forall lf flt sv doy year junk junk_time o d rows t, reads_doubles lf -> reads_floats flt ->
  good_table (o_scale o) (o_offset o) (o_parse o) d rows -> o_sys o = Some t -> (31 <= length t)%nat ->
  txt2las lf flt sv doy year junk junk_time o (table_text d rows) = UB UBOutOfBounds.
Proof.
  intros lf flt sv doy year junk jt o d rows t RD RF (SF & DL & HX & NE & NB & FR) ET LT.
  assert (HA : forall ax, In (axis_char ax) (o_parse o)) by (intros ax; apply HX; destruct ax; cbn; tauto).
  assert (FF : Forall (row_fits (o_scale o) (o_offset o) (o_parse o)) rows) by (eapply Forall_impl; [|exact FR]; cbv beta; tauto).
  assert (LN : lines (table_text d rows) = map (line d) rows).
  { apply table_lines; [exact DL| |]; (eapply Forall_impl; [|exact FR]); cbv beta; [|tauto]. intros row (A & _). exact (cells_of _ _ (fits_row _ _ _ _ SF A)). }
  destruct (new_header_plain doy year) as (dh & ED & PD).
  assert (F0 : exists row0, row_fits (o_scale o) (o_offset o) (o_parse o) row0) by (destruct rows as [|row0 rows0]; [contradiction|exists row0; exact (Forall_inv FF)]). destruct F0 as (row0 & F0).
  destruct (first_columns (o_parse o) row0 (HA AxX) (fits_row _ _ _ _ SF F0)) as (pl & _ & _ & PL & _). clear F0.
  destruct (pass1_ok lf flt RD RF (o_scale o) (o_offset o) (o_parse o) d SF DL HA dh pl PD PL rows junk jt None 0 (repeat 0 8) FF (conj eq_refl eq_refl) (Z.le_refl 0) NB) as (acc & xyz & tm & P1 & SO & NN).
  destruct acc as [a|]; [|exfalso; apply (NN NE); reflexivity]. destruct SO as (_ & N1 & N2 & _).
  destruct (boxes_ok _ _ (t_min a) SF N1) as (lo & BL). destruct (boxes_ok _ _ (t_max a) SF N2) as (hi & BH).
  unfold txt2las. rewrite ED. cbn [obind]. rewrite PL. cbn [obind]. rewrite LN, P1. cbn [obind]. rewrite BL. cbn [obind]. rewrite BH. cbn [obind].
  unfold make_header. rewrite ED. cbn [obind]. rewrite ET. cbn [opt_text]. unfold copy31. destruct (Nat.leb_spec 31 (length t)); [reflexivity|lia].
Qed.

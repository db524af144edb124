(** txt2las: the box and the header. *)
From Coq Require Import ZArith List Bool String Ascii Lia Reals Lra.
Import ListNotations.
From Flocq Require Import Core BinarySingleNaN Binary Bits.
From Verif Require Import Outcome Bytes CStr Float64 Float64_Proofs Schema_Model Header_Model Vlr_Model Point_Model Point_Spec Stream_Model Writer_Model IO_Spec Writer_Append
  Coord_Api Bounds_Proofs Coord_Proofs Txt2las_Model Txt2las_Spec Txt2las_Point CApi_Safe.
Local Open Scope list_scope.
Local Open Scope Z_scope.
Local Notation length := List.length (only parsing).

(** ** The box *)
Definition near (s o v : f64) : Prop := f64_fin v = true /\ (Rabs (f64_R v - f64_R o) <= 2147483646.2 * Rabs (f64_R s))%R.
Lemma box_ok s o v : scale_ok s -> f64_fin o = true -> near s o v -> exists b, box_value v s o = Ok b.
Proof.
  intros Hs Fo (Fv & B). assert (S0 : (0 < Rabs (f64_R s))%R) by (destruct Hs as (_ & S1 & _); apply Rlt_le_trans with (2 := S1); apply bpow_gt_0).
  destruct (quotient_err s o v Hs Fo Fv ltac:(lra)) as (Fq & Eq). cbv zeta in Fq, Eq. set (q := f64_div (f64_sub v o) s) in *.
  assert (Bt : (Rabs ((f64_R v - f64_R o) / f64_R s) <= 2147483646.2)%R) by (apply div_bound; [exact S0|lra]).
  destruct f64_half_R as (HF & HR).
  assert (Bq : (-2147483646.3 <= f64_R q <= 2147483646.3)%R) by (apply rabs in Bt; apply rabs in Eq; lra).
  destruct (add_ok f64_half q HF Fq) as (Fa & Ra).
  { rewrite HR. apply Rle_trans with 4294967296%R; [apply Rabs_le; lra|]. change 4294967296%R with (bpow radix2 32). apply bpow_le. lia. }
  rewrite HR in Ra. destruct (rnd64_err (/ 2 + f64_R q)) as (e & k & He & Hk & E). rewrite E in Ra.
  pose proof (err_mul (/ 2 + f64_R q) e 4294967296 u64 ltac:(apply Rabs_le; lra) He) as M. apply rabs in Hk. pose proof eta_small as ES. unfold u64 in M.
  assert (RB : (-2147483646.5 <= f64_R (f64_add f64_half q) <= 2147483647.2)%R) by lra.
  unfold box_value. fold q. unfold f64_to_int32, f64_to_int. unfold f64_fin in Fa. rewrite Fa. cbn [andb].
  assert (TR : IZR (Btrunc 53 1024 (f64_add f64_half q)) = IZR (Ztrunc (f64_R (f64_add f64_half q)))) by (rewrite (Btrunc_correct 53 1024 prec53_lt_emax), round_FIX0; reflexivity).
  apply eq_IZR in TR. rewrite TR.
  assert (IN : in_signedb 32 (Ztrunc (f64_R (f64_add f64_half q))) = true).
  { unfold in_signedb. change (2 ^ (32 - 1)) with 2147483648. apply andb_true_iff. rewrite Z.leb_le, Z.ltb_lt. split.
    - apply Z.le_trans with (Ztrunc (IZR (-2147483648))); [rewrite Ztrunc_IZR; lia|apply Ztrunc_le; lra].
    - destruct (Rle_or_lt 0 (f64_R (f64_add f64_half q))) as [P|P].
      + rewrite Ztrunc_floor by exact P. apply lt_IZR. apply Rle_lt_trans with (1 := Zfloor_lb _). lra.
      + apply Z.le_lt_trans with 0; [|lia]. rewrite Ztrunc_ceil by lra. apply Zceil_glb. lra. }
  rewrite IN. cbn [obind]. eexists. reflexivity.
Qed.
Lemma boxes_ok scale offset v : scaling_fits scale offset -> (forall ax, near (axis_of scale ax) (axis_of offset ax) (axis_of v ax)) ->
  exists b, box_values v scale offset = Ok b.
Proof.
  intros SF N. unfold box_values.
  destruct (SF AxX) as (SX & OX & _). destruct (SF AxY) as (SY & OY & _). destruct (SF AxZ) as (SZ & OZ & _).
  destruct (box_ok _ _ _ SX OX (N AxX)) as (x & EX). destruct (box_ok _ _ _ SY OY (N AxY)) as (y & EY). destruct (box_ok _ _ _ SZ OZ (N AxZ)) as (z & EZ).
  exists (x, y, z). cbn [axis_of] in EX, EY, EZ. unfold x_of, y_of, z_of. rewrite EX. cbn [obind]. rewrite EY. cbn [obind]. rewrite EZ. reflexivity.
Qed.

(** ** The header *)
Definition id_fits (t : option (list Z)) : Prop := match t with None => True | Some t => (length t < 31)%nat /\ bytes_ok t end.
Lemma point_format_spec p : point_format p = format_of p.
Proof.
  unfold point_format, format_of, has.
  assert (E : existsb (fun c => existsb (Ascii.eqb c) ["R"; "G"; "B"]%char) p = existsb (Ascii.eqb "R"%char) p || existsb (Ascii.eqb "G"%char) p || existsb (Ascii.eqb "B"%char) p).
  { set (g := fun c => existsb (Ascii.eqb c) ["R"; "G"; "B"]%char). induction p as [|c p IH]; [reflexivity|]. cbn [existsb]. rewrite IH. unfold g. cbn [existsb]. rewrite !(Ascii.eqb_sym c). rewrite orb_false_r.
    destruct (Ascii.eqb "R" c), (Ascii.eqb "G" c), (Ascii.eqb "B" c), (existsb (Ascii.eqb "R"%char) p), (existsb (Ascii.eqb "G"%char) p), (existsb (Ascii.eqb "B"%char) p); reflexivity. }
  rewrite E. destruct (existsb (Ascii.eqb "t"%char) p), (existsb (Ascii.eqb "R"%char) p), (existsb (Ascii.eqb "G"%char) p), (existsb (Ascii.eqb "B"%char) p); reflexivity.
Qed.
Lemma format_range p : 0 <= format_of p <= 3.
Proof. unfold format_of. destruct (existsb _ p), (existsb _ p); lia. Qed.
Lemma reformat3 f : 0 <= f <= 3 -> exists s3 s, schema_new 3 = Ok s3 /\ set_format s3 f = (s, Ok tt) /\ s_format s = f /\ schema_bytes s mod 2 ^ 16 = format_bytes f /\ is_custom s = false.
Proof.
  intros R. destruct (Schema_Proofs.sinv_new 3 ltac:(lia)) as (s3 & E & _ & _). exists s3. rewrite E. vm_compute in E. apply Ok_inj in E. subst s3.
  assert (C : f = 0 \/ f = 1 \/ f = 2 \/ f = 3) by lia. destruct C as [->|[->|[->| ->]]]; eexists; (split; [reflexivity|]; split; [vm_compute; reflexivity|]; split; [vm_compute; reflexivity|]; split; vm_compute; reflexivity).
Qed.
Definition hist5 (hist : list Z) : list Z := map (fun k => nth k hist 0 mod 2 ^ 32) [1; 2; 3; 4; 5]%nat.

Lemma opt_text_sys h t : id_fits t -> exists v, opt_text h set_system_id t = Ok (h_upd_sysid h v) /\ (v = h_sysid h \/ length v = 32%nat /\ bytes_ok v).
Proof.
  intros I. destruct t as [t|]; cbn [opt_text].
  - destruct I as (L & B). unfold copy31. destruct (Nat.leb_spec 31 (length t)); [lia|]. cbn [obind]. unfold set_system_id.
    destruct (Nat.ltb_spec eSystemIdSize (length t)) as [X|X]; [unfold eSystemIdSize in X; lia|]. cbn [kept_hdr]. exists (strncpy eSystemIdSize t). split; [reflexivity|]. right. split; [apply strncpy_length|apply bytes_strncpy, B].
  - exists (h_sysid h). split; [destruct h; reflexivity|now left].
Qed.
Lemma opt_text_soft h t : id_fits t -> exists v, opt_text h set_software_id t = Ok (h_upd_swid h v) /\ (v = h_swid h \/ length v = 32%nat /\ bytes_ok v).
Proof.
  intros I. destruct t as [t|]; cbn [opt_text].
  - destruct I as (L & B). unfold copy31. destruct (Nat.leb_spec 31 (length t)); [lia|]. cbn [obind]. unfold set_software_id.
    destruct (Nat.ltb_spec eSoftwareIdSize (length t)) as [X|X]; [unfold eSoftwareIdSize in X; lia|]. cbn [kept_hdr]. exists (strncpy eSoftwareIdSize t). split; [reflexivity|]. right. split; [apply strncpy_length|apply bytes_strncpy, B].
  - exists (h_swid h). split; [destruct h; reflexivity|now left].
Qed.
Lemma by_ok h a k r : h_byret h = r -> length r = 7%nat -> 0 <= k < 7 -> by_return h a k = Ok (h_upd_byret h (list_set r (Z.to_nat k) (nth (Z.to_nat (k + 1)) a 0 mod 2 ^ 32))).
Proof.
  intros E L K. unfold by_return, set_by_return. rewrite E, L. change (Z.of_nat 7) with 7.
  destruct (Z.leb_spec 0 k); [|lia]. destruct (Z.ltb_spec k 7); [|lia]. reflexivity.
Qed.
Lemma list_set_length {A} (l : list A) k x : length (list_set l k x) = length l.
Proof. revert k. induction l as [|y l IH]; intros [|k]; cbn [list_set List.length]; auto. Qed.
Lemma by_all h a : h_byret h = repeat 0 7 ->
  (let! h := by_return h a 0 in let! h := by_return h a 1 in let! h := by_return h a 2 in let! h := by_return h a 3 in by_return h a 4) = Ok (h_upd_byret h (hist5 a ++ [0; 0])).
Proof.
  intros E. rewrite (by_ok h a 0 _ E eq_refl) by lia. cbn [obind].
  rewrite (by_ok _ a 1 _ eq_refl) by (rewrite ?list_set_length; reflexivity || lia). cbn [obind]. rewrite (by_ok _ a 2 _ eq_refl) by (cbn [h_byret h_upd_byret]; rewrite ?list_set_length; reflexivity || lia). cbn [obind].
  rewrite (by_ok _ a 3 _ eq_refl) by (cbn [h_byret h_upd_byret]; rewrite ?list_set_length; reflexivity || lia). cbn [obind]. rewrite (by_ok _ a 4 _ eq_refl) by (cbn [h_byret h_upd_byret]; rewrite ?list_set_length; reflexivity || lia). reflexivity.
Qed.
Lemma mod32_range a : in_unsigned 32 (a mod 2 ^ 32).
Proof. unfold in_unsigned. apply Z.mod_pos_bound. lia. Qed.

Lemma make_header_ok sv doy year o a lo hi : id_fits (o_sys o) -> id_fits (o_soft o) -> 0 <= o_minor o <= 2 ->
  exists h, make_header doy year o a lo hi = Ok h /\ fresh_ok sv h /\ get_format h = format_of (o_parse o) /\ get_record_length h = format_bytes (format_of (o_parse o)) /\
    h_sig h = str "LASF" /\ h_vmaj h = 1 /\ h_vmin h = (if 2 <=? format_of (o_parse o) then 2 else o_minor o) /\ h_scale h = o_scale o /\ h_offset h = o_offset o /\
    written_vlrs sv h = [] /\ firstn 5 (h_byret h) = hist5 (t_hist a) /\ h_min h = lo /\ h_max h = hi /\ h_hsize h = 227 /\ h_doff h = 227.
Proof.
  intros I1 I2 MI. set (f := format_of (o_parse o)). pose proof (format_range (o_parse o)) as FR. fold f in FR.
  destruct (CApi_Safe.header_new_wf doy year) as (h0 & E & W & _).
  destruct (reformat3 f FR) as (s3 & s & E3 & SF & F & RL & CU).
  assert (H0 : h_sig h0 = str "LASF" /\ h_vmaj h0 = 1 /\ h_srs h0 = [] /\ h_vlrs h0 = [] /\ h_comp h0 = false /\ h_hsize h0 = 227 /\ h_doff h0 = 227 /\ h_pad h0 = 0 /\ h_schema h0 = s3 /\ h_nvlr h0 = 0 /\ h_byret h0 = repeat 0 7).
  { unfold header_new in E. rewrite E3 in E. cbn [obind] in E. apply Ok_inj in E. subst h0. repeat split. }
  destruct H0 as (A1 & A2 & A3 & A4 & A5 & A6 & A7 & A8 & A9 & A10 & A11).
  unfold make_header. rewrite E. cbn [obind].
  destruct (opt_text_sys h0 (o_sys o) I1) as (v1 & -> & V1). cbn [obind].
  destruct (opt_text_soft (h_upd_sysid h0 v1) (o_soft o) I2) as (v2 & -> & V2). cbn [obind]. cbv zeta.
  change (h_swid (h_upd_sysid h0 v1)) with (h_swid h0) in V2.
  set (h1 := set_creation_year (set_creation_doy (h_upd_swid (h_upd_sysid h0 v1) v2) (o_day o)) (o_year o)).
  unfold set_version_minor at 1. unfold eVersionMinorMax. destruct (Z.ltb_spec 3 (o_minor o)); [lia|]. cbn [kept_hdr obind].
  rewrite point_format_spec. fold f. unfold set_header_format. change (h_schema (h_upd_vmin h1 (o_minor o))) with (h_schema h0). rewrite A9, SF. cbn [obind].
  set (h2 := h_upd_schema (h_upd_vmin h1 (o_minor o)) s).
  assert (V : exists h3, (if (f =? 2) || (f =? 3) then kept_hdr h2 (set_version_minor h2 2) else Ok h2) = Ok h3 /\ h3 = h_upd_vmin h2 (if 2 <=? f then 2 else o_minor o)).
  { destruct (Z.eqb_spec f 2) as [Q|Q]; [|destruct (Z.eqb_spec f 3) as [Q'|Q']]; cbn [orb].
    - rewrite Q. change (2 <=? 2) with true. eexists. split; reflexivity.
    - rewrite Q'. change (2 <=? 3) with true. eexists. split; reflexivity.
    - destruct (Z.leb_spec 2 f); [lia|]. eexists. split; [reflexivity|]. reflexivity. }
  destruct V as (h3 & -> & ->). cbn [obind]. set (vm := if 2 <=? f then 2 else o_minor o).
  assert (VM : 0 <= vm <= 2) by (unfold vm; destruct (2 <=? f); lia).
  rewrite by_all by exact A11.
  eexists. split; [reflexivity|].
  set (h := h_upd_byret _ _).
  assert (WV : written_vlrs sv h = []).
  { unfold written_vlrs. change (h_schema h) with s. rewrite CU. change (h_vlrs h) with (h_vlrs h0). change (h_srs h) with (h_srs h0). rewrite A3, A4. reflexivity. }
  split.
  { unfold fresh_ok. cbv zeta. rewrite WV. change (h_schema h) with s. rewrite CU. change (h_comp h) with (h_comp h0). change (h_srs h) with (h_srs h0). change (h_hsize h) with (h_hsize h0). change (h_doff h) with (h_doff h0). change (h_pad h) with (h_pad h0).
    rewrite A3, A5, A6, A7, A8. split; [|split; [reflexivity|split; [constructor|split; [discriminate|split; [constructor|cbn [vlrs_size fold_right]; lia]]]]].
    destruct W as (H1&H2&H3&H4&H5&H6&H7&H8&H9&H10&H11&H12&H13&H14&H15&H16&H17&H18&H19&H20&H21&H22&H23).
    assert (S1 : length v1 = eSystemIdSize /\ bytes_ok v1) by (destruct V1 as [->|V1]; [split; assumption|exact V1]).
    assert (S2 : length v2 = eSoftwareIdSize /\ bytes_ok v2) by (destruct V2 as [->|V2]; [split; assumption|exact V2]).
    destruct S1, S2. unfold header_wf. change (h_npts h) with (t_n a mod 2 ^ 32). change (h_vmin h) with vm. change (h_sysid h) with v1. change (h_swid h) with v2.
    change (h_doy h) with (o_day o mod 2 ^ 16). change (h_year h) with (o_year o mod 2 ^ 16). change (h_byret h) with (hist5 (t_hist a) ++ [0; 0]).
    assert (BR : Forall (in_unsigned 32) (hist5 (t_hist a) ++ [0; 0])).
    { apply Forall_app. split; [unfold hist5; apply Forall_map; apply Forall_forall; intros; apply mod32_range|]. repeat constructor; unfold in_unsigned; lia. }
    repeat (split; [first [assumption | reflexivity | (unfold in_unsigned; clear - VM; lia) | apply mod32_range | (unfold in_unsigned; apply Z.mod_pos_bound; clear; lia)]|]). assumption. }
  split; [exact F|]. split; [exact RL|]. split; [exact A1|]. split; [exact A2|]. split; [reflexivity|]. split; [|split].
  - change (h_scale h) with (x_of (o_scale o), y_of (o_scale o), z_of (o_scale o)). destruct (o_scale o) as [[? ?] ?]. reflexivity.
  - change (h_offset h) with (x_of (o_offset o), y_of (o_offset o), z_of (o_offset o)). destruct (o_offset o) as [[? ?] ?]. reflexivity.
  - split; [exact WV|]. split; [reflexivity|]. split; [|split].
    + change (h_min h) with (x_of lo, y_of lo, z_of lo). destruct lo as [[? ?] ?]. reflexivity.
    + change (h_max h) with (x_of hi, y_of hi, z_of hi). destruct hi as [[? ?] ?]. reflexivity.
    + split; [exact A6|exact A7].
Qed.

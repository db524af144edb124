(** What a reader finds in a file the writer produced. *)
From Coq Require Import ZArith List Bool Lia String.
From Coq Require Import ZifyBool ZifyNat.
Import ListNotations.
From Verif Require Import Outcome Bytes Float64 CStr Vlr_Model Schema_Model Header_Model Point_Model
  Stream_Model Stream_Proofs Writer_Model IO_Spec Writer_Api Writer_Proofs Writer_File Writer_V10 Reader_Proofs Reader_Vlrs Float64_Proofs Reader_Spec.
Local Open Scope Z_scope.
Local Notation length := List.length (only parsing).

Lemma then_at_split D p T : exists rest, then_at D p T = D ++ rest.
Proof. destruct T; cbn [then_at]; [exists []; now rewrite app_nil_r|eexists; reflexivity]. Qed.

(** the header in the file *)
Definition file_header (sv : schema -> vlr) (h : header) (n : Z) : header :=
  set_point_count (fresh_header sv h (fresh_doff sv h)) n.
Definition file_image (sv : schema -> vlr) (h : header) (ps : list point) : list Z :=
  then_at (hdr_bytes (file_header sv h (Z.of_nat (length ps)))) (Z.to_nat (h_hsize h))
          (fresh_tail sv h ++ records (get_record_length h) ps).

Lemma file_header_wf sv h n : fresh_ok sv h -> header_wf (file_header sv h n).
Proof. intros H. apply wf_set_npts, fresh_header_wf, H. Qed.

Lemma fresh_bounds sv h : fresh_ok sv h ->
  227 <= h_hsize h < 2 ^ 16 /\ h_hsize h <= fresh_doff sv h < 2 ^ 32 /\ 0 <= h_vmin h < 256 /\
  Z.of_nat (length (written_vlrs sv h)) < 2 ^ 31.
Proof.
  intros (Hwf & Hc & Hsrs & Hsv & Hl & Hh & Hb & Hd & Hp).
  pose proof (vlrs_size_count (written_vlrs sv h)). pose proof (vlrs_size_nonneg (written_vlrs sv h)).
  destruct Hwf as (_&_&_&_&_&_&_&Hm&_&_&_&_&_&_&Hhs&_). unfold in_unsigned in *. unfold fresh_doff, pad_sig.
  destruct (h_vmin h =? 0); cbn [List.length]; lia.
Qed.

Lemma file_header_fields sv h n : fresh_ok sv h -> 0 <= n < 2 ^ 32 ->
  h_doff (file_header sv h n) = fresh_doff sv h /\ h_hsize (file_header sv h n) = h_hsize h /\
  h_npts (file_header sv h n) = n /\ h_nvlr (file_header sv h n) = Z.of_nat (length (written_vlrs sv h)) /\
  h_vmin (file_header sv h n) = h_vmin h /\ h_vmaj (file_header sv h n) = h_vmaj h /\ h_sig (file_header sv h n) = h_sig h /\
  h_schema (file_header sv h n) = h_schema h /\ h_comp (file_header sv h n) = h_comp h /\
  h_scale (file_header sv h n) = h_scale h /\ h_offset (file_header sv h n) = h_offset h.
Proof.
  intros HF Hn. destruct (fresh_bounds sv h HF) as (B1 & B2 & B3 & B4).
  unfold file_header, fresh_header, set_point_count, set_data_offset. cbn. rewrite !Z.mod_small by lia. repeat split.
Qed.

Lemma pub_of_written sv h ps : fresh_ok sv h -> 0 <= get_format h < 256 ->
  pub_of_file (file_image sv h ps) = pub_of_header (stored_view (file_header sv h (Z.of_nat (length ps)))).
Proof.
  intros HF Hf. unfold file_image. destruct (then_at_split (hdr_bytes (file_header sv h (Z.of_nat (length ps)))) (Z.to_nat (h_hsize h))
          (fresh_tail sv h ++ records (get_record_length h) ps)) as [rest ->].
  apply pub_of_hdr; [apply file_header_wf, HF| |].
  - destruct HF as (_ & Hc & _). exact Hc.
  - exact Hf.
Qed.

Lemma stored_view_fields h : h_hsize (stored_view h) = h_hsize h /\ h_doff (stored_view h) = h_doff h /\
  h_nvlr (stored_view h) = h_nvlr h /\ h_npts (stored_view h) = h_npts h /\ h_sig (stored_view h) = h_sig h /\
  h_vmaj (stored_view h) = h_vmaj h /\ h_vmin (stored_view h) = h_vmin h /\ h_schema (stored_view h) = h_schema h /\
  h_scale (stored_view h) = h_scale h /\ h_offset (stored_view h) = h_offset h.
Proof. unfold stored_view. destruct (h_vmin h =? 0); repeat split. Qed.

(** the numbers found in the file *)
Lemma written_fields sv h ps : fresh_ok sv h -> 0 <= get_format h < 256 -> Z.of_nat (length ps) < 2 ^ 32 ->
  let F := file_image sv h ps in
  slice F 0 4 = h_sig h /\ u_at F 24 1 = h_vmaj h /\ u_at F 25 1 = h_vmin h /\ u_at F 94 2 = h_hsize h /\
  u_at F 96 4 = fresh_doff sv h /\ u_at F 100 4 = Z.of_nat (length (written_vlrs sv h)) /\
  u_at F 104 1 = get_format h /\ u_at F 105 2 = get_record_length h /\ u_at F 107 4 = Z.of_nat (length ps) /\
  (u_at F 131 8, u_at F 139 8, u_at F 147 8) = bits3 (h_scale h) /\ (u_at F 155 8, u_at F 163 8, u_at F 171 8) = bits3 (h_offset h).
Proof.
  intros HF Hf Hn F. pose proof (pub_of_written sv h ps HF Hf) as P. fold F in P.
  destruct (file_header_fields sv h (Z.of_nat (length ps)) HF ltac:(lia)) as (E1&E2&E3&E4&E5&E6&E7&E8&E9&E10&E11).
  set (H := file_header sv h (Z.of_nat (length ps))) in *.
  destruct (stored_view_fields H) as (S1&S2&S3&S4&S5&S6&S7&S8&S9&S10).
  set (V := stored_view H) in *. clearbody V.
  assert (G : forall A (f : pubhdr -> A), f (pub_of_file F) = f (pub_of_header V)) by (intros; now rewrite P).
  repeat split.
  - etransitivity; [exact (G _ ph_sig)|]. cbn [ph_sig pub_of_header]. unfold get_file_signature. congruence.
  - etransitivity; [exact (G _ ph_vmaj)|]. cbn [ph_vmaj pub_of_header]. congruence.
  - etransitivity; [exact (G _ ph_vmin)|]. cbn [ph_vmin pub_of_header]. congruence.
  - etransitivity; [exact (G _ ph_hsize)|]. cbn [ph_hsize pub_of_header]. congruence.
  - etransitivity; [exact (G _ ph_doff)|]. cbn [ph_doff pub_of_header]. congruence.
  - etransitivity; [exact (G _ ph_nvlr)|]. cbn [ph_nvlr pub_of_header]. congruence.
  - etransitivity; [exact (G _ ph_format)|]. cbn [ph_format pub_of_header]. unfold get_format. congruence.
  - etransitivity; [exact (G _ ph_reclen)|]. cbn [ph_reclen pub_of_header]. unfold get_record_length. congruence.
  - etransitivity; [exact (G _ ph_npts)|]. cbn [ph_npts pub_of_header]. congruence.
  - etransitivity; [exact (G _ ph_scale)|]. cbn [ph_scale pub_of_header]. congruence.
  - etransitivity; [exact (G _ ph_offset)|]. cbn [ph_offset pub_of_header]. congruence.
Qed.

(** the VLRs found in the file *)
Lemma written_vlrs_read sv h ps : fresh_ok sv h -> 0 <= get_format h < 256 -> Z.of_nat (length ps) < 2 ^ 32 ->
  file_vlrs (file_image sv h ps) = map vlr_norm (written_vlrs sv h) /\
  file_vlrs_end (file_image sv h ps) = Z.to_nat (h_hsize h + vlrs_size (written_vlrs sv h)) /\
  (written_vlrs sv h <> [] -> (file_vlrs_end (file_image sv h ps) <= length (file_image sv h ps))%nat).
Proof.
  intros HF Hf Hn. destruct (written_fields sv h ps HF Hf Hn) as (_&_&_&E94&_&E100&_).
  unfold file_vlrs, file_vlrs_end. rewrite E94, E100, Nat2Z.id.
  pose proof HF as (Hwf & Hc & Hsrs & Hsv & Hl & Hh & Hb & Hd & Hp).
  pose proof (file_header_wf sv h (Z.of_nat (length ps)) HF) as WF. pose proof (hdr_bytes_len _ WF) as HL.
  destruct (fresh_bounds sv h HF) as (B1 & B2 & B3 & B4).
  unfold file_image. set (D := hdr_bytes _) in *. unfold fresh_tail.
  destruct (written_vlrs sv h) as [|v L] eqn:EL.
  - cbn [List.length vlrs_at vlrs_end map vlrs_size fold_right]. rewrite Z.add_0_r. split; [reflexivity|]. split; [reflexivity|congruence].
  - rewrite <- EL in *.
    assert (NE : vlrs_image (written_vlrs sv h) <> []).
    { rewrite EL. unfold vlrs_image. cbn [map List.concat]. pose proof (vlr_image_nonempty v). destruct (vlr_image v); [congruence|discriminate]. }
    assert (ET : then_at D (Z.to_nat (h_hsize h)) ((vlrs_image (written_vlrs sv h) ++ pad_sig (h_vmin h)) ++ records (get_record_length h) ps) =
       (D ++ repeat 0 (Z.to_nat (h_hsize h) - length D)) ++ vlrs_image (written_vlrs sv h) ++ (pad_sig (h_vmin h) ++ records (get_record_length h) ps)).
    { rewrite <- !app_assoc. destruct (vlrs_image (written_vlrs sv h)) as [|x I]; [congruence|]. reflexivity. }
    rewrite ET. set (A := D ++ repeat 0 _).
    assert (LA : length A = Z.to_nat (h_hsize h)) by (unfold A; rewrite app_length, repeat_length; lia).
    rewrite <- LA.
    destruct (vlrs_at_image (written_vlrs sv h) A (pad_sig (h_vmin h) ++ records (get_record_length h) ps)) as [V1 V2].
    { eapply Forall_impl; [|exact Hl]. intros x Hx. exact Hx. }
    assert (HI : Forall vlr_wf (written_vlrs sv h)) by (eapply Forall_impl; [|exact Hl]; intros x [Hx _]; exact Hx).
    pose proof (vlrs_image_len _ HI) as IL.
    rewrite V1, V2. split; [reflexivity|]. split; [lia|]. intros _. rewrite !app_length. lia.
Qed.

(** the records found in the file *)
Lemma record_of_len rl p : 0 <= rl -> point_fits rl p -> length (record_of rl p) = Z.to_nat rl.
Proof. intros H (H1 & _). unfold record_of. rewrite firstn_length. lia. Qed.

Lemma records_slice rl ps : 0 <= rl -> Forall (point_fits rl) ps -> forall k p, nth_error ps k = Some p ->
  forall A, slice (A ++ records rl ps) (length A + k * Z.to_nat rl) (Z.to_nat rl) = record_of rl p.
Proof.
  intros H0 HF. induction HF as [|q ps Hq HF IH]; intros k p Hk A; destruct k as [|k]; cbn [nth_error] in Hk; try discriminate.
  - injection Hk as ->. unfold records. cbn [map List.concat]. rewrite Nat.mul_0_l, Nat.add_0_r.
    apply slice_app_mid. symmetry. now apply record_of_len.
  - unfold records. cbn [map List.concat]. fold (records rl ps). rewrite app_assoc.
    replace (length A + S k * Z.to_nat rl)%nat with (length (A ++ record_of rl q) + k * Z.to_nat rl)%nat.
    + now apply IH.
    + rewrite app_length, record_of_len by assumption. lia.
Qed.
Lemma records_len rl ps : 0 <= rl -> Forall (point_fits rl) ps -> length (records rl ps) = (length ps * Z.to_nat rl)%nat.
Proof.
  intros H0 HF. induction HF as [|q ps Hq HF IH]; [reflexivity|]. unfold records. cbn [map List.concat List.length].
  rewrite app_length, record_of_len by assumption. fold (records rl ps). rewrite IH. lia.
Qed.

Lemma reclen_range h : 0 <= get_record_length h < 2 ^ 16.
Proof. unfold get_record_length. apply Z.mod_pos_bound. lia. Qed.

(** position of the record block *)
Lemma file_image_records sv h ps : fresh_ok sv h -> ps <> [] -> Forall (point_fits (get_record_length h)) ps -> 0 < get_record_length h ->
  exists A, file_image sv h ps = A ++ records (get_record_length h) ps /\ length A = Z.to_nat (fresh_doff sv h).
Proof.
  intros HF HP HFit Hr. pose proof (file_header_wf sv h (Z.of_nat (length ps)) HF) as WF. pose proof (hdr_bytes_len _ WF) as HL.
  destruct (fresh_bounds sv h HF) as (B1 & B2 & B3 & B4).
  pose proof (fresh_tail_len sv h HF) as TL.
  unfold file_image. set (D := hdr_bytes _) in *.
  exists (D ++ repeat 0 (Z.to_nat (h_hsize h) - length D) ++ fresh_tail sv h). split.
  - assert (NE : fresh_tail sv h ++ records (get_record_length h) ps <> []).
    { intros E. apply (f_equal (@length Z)) in E. rewrite app_length, records_len in E by (assumption || lia). destruct ps; [congruence|].
      cbn [List.length] in E. lia. }
    rewrite <- !app_assoc.
    destruct (fresh_tail sv h ++ records (get_record_length h) ps); [congruence|reflexivity].
  - rewrite !app_length, repeat_length. lia.
Qed.

Lemma written_record sv h ps k p : fresh_ok sv h -> 0 <= get_format h < 256 -> Z.of_nat (length ps) < 2 ^ 32 ->
  Forall (point_fits (get_record_length h)) ps -> 0 < get_record_length h ->
  nth_error ps k = Some p -> file_record (file_image sv h ps) (Z.of_nat k) = record_of (get_record_length h) p.
Proof.
  intros HF Hf Hn HP Hr Hk. destruct (written_fields sv h ps HF Hf Hn) as (_&_&_&_&E96&_&_&E105&_).
  destruct (fresh_bounds sv h HF) as (B1 & B2 & B3 & B4).
  destruct (file_image_records sv h ps HF) as (A & EA & LA); [intros ->; destruct k; discriminate|assumption|assumption|].
  unfold file_record, f_doff, f_reclen. rewrite E96, E105, EA.
  replace (Z.to_nat (fresh_doff sv h + Z.of_nat k * get_record_length h)) with (length A + k * Z.to_nat (get_record_length h))%nat by nia.
  apply records_slice; [lia|assumption|assumption].
Qed.

Lemma written_complete sv h ps : fresh_ok sv h -> 0 <= get_format h < 256 -> Z.of_nat (length ps) < 2 ^ 32 ->
  Forall (point_fits (get_record_length h)) ps -> 0 < get_record_length h -> complete (file_image sv h ps).
Proof.
  intros HF Hf Hn HP Hr. destruct (written_fields sv h ps HF Hf Hn) as (_&_&_&_&E96&_&_&E105&E107&_).
  destruct (fresh_bounds sv h HF) as (B1 & B2 & B3 & B4).
  unfold complete, f_doff, f_reclen, f_npts. rewrite E96, E105, E107. split; [exact Hr|]. intros Hp.
  destruct (file_image_records sv h ps HF) as (A & EA & LA); [intros ->; cbn in Hp; lia|assumption|assumption|].
  rewrite EA, app_length, records_len by (assumption || lia). nia.
Qed.

(** all bytes are bytes *)
Lemma bytes_concat (l : list (list Z)) : Forall bytes_ok l -> bytes_ok (List.concat l).
Proof. induction 1; cbn [List.concat]; [constructor|]. apply Forall_app. split; assumption. Qed.
Lemma repeat_bytes n b : is_byte b -> bytes_ok (repeat b n).
Proof. intros H. induction n; constructor; assumption. Qed.
Lemma vlr_image_bytes v : vlr_wf v -> bytes_ok (vlr_image v).
Proof.
  intros (Lu & Ld & Bu & Bd & Bdat & Rr & Ri & Rs). unfold vlr_image.
  apply bytes_app; [apply le_enc_bytes|]. apply bytes_app; [now apply bytes_pad, bytes_until_nul|].
  apply bytes_app; [apply le_enc_bytes|]. apply bytes_app; [apply le_enc_bytes|].
  apply bytes_app; [now apply bytes_pad, bytes_until_nul|assumption].
Qed.
Lemma guid_swap_bytes g : length g = 16%nat -> bytes_ok g -> bytes_ok (guid_swap g).
Proof.
  intros HL HB. do 17 (destruct g as [|? g]; try discriminate HL). unfold bytes_ok in *.
  repeat match goal with H : Forall _ (_ :: _) |- _ => inversion H; clear H; subst end.
  unfold guid_swap. cbn. repeat (apply Forall_cons; [assumption|]). apply Forall_nil.
Qed.
Lemma concat_le4_bytes l : bytes_ok (List.concat (map le4 l)).
Proof. apply bytes_concat. induction l; constructor; [apply le_enc_bytes|assumption]. Qed.
Lemma hdr_bytes_bytes h : header_wf h -> bytes_ok (hdr_bytes h).
Proof.
  intros (Hs & Hsb & Hsrc & Hres & Hg & Hgb & Hmaj & Hmin & Hsy & Hsyb & Hsw & Hswb & _).
  unfold hdr_bytes. apply bytes_concat.
  assert (G1 : bytes_ok (get_system_id true h)).
  { unfold get_system_id. destruct (true && _); [apply bytes_pad|]; apply bytes_until_nul, Hsyb. }
  assert (G2 : bytes_ok (get_software_id true h)).
  { unfold get_software_id. destruct (true && _); [apply bytes_pad|]; apply bytes_until_nul, Hswb. }
  pose proof (guid_swap_bytes _ Hg Hgb) as G3. pose proof (concat_le4_bytes (firstn 5 (h_byret h))) as G4.
  unfold header_chunks. destruct (h_vmin h =? 0); cbn [app];
    repeat (constructor; [first [exact Hsb | exact G1 | exact G2 | exact G3 | exact G4 | apply le_enc_bytes]|]); constructor.
Qed.
Lemma then_at_bytes D p T : bytes_ok D -> bytes_ok T -> bytes_ok (then_at D p T).
Proof.
  intros HD HT. destruct T as [|t T]; [exact HD|]. cbn [then_at]. apply bytes_app; [exact HD|].
  apply bytes_app; [apply repeat_bytes; unfold is_byte; lia|exact HT].
Qed.
Lemma file_image_bytes sv h ps : fresh_ok sv h -> Forall (fun p => bytes_ok (p_data p)) ps -> bytes_ok (file_image sv h ps).
Proof.
  intros HF HP. pose proof HF as (Hwf & Hc & Hsrs & Hsv & Hl & Hh & Hb & Hd & Hp).
  unfold file_image. apply then_at_bytes; [apply hdr_bytes_bytes, file_header_wf, HF|].
  unfold fresh_tail. repeat apply bytes_app.
  - unfold vlrs_image. apply bytes_concat. apply Forall_map. eapply Forall_impl; [|exact Hl]. intros v [Hv _]. now apply vlr_image_bytes.
  - unfold pad_sig. destruct (_ =? _); repeat constructor; unfold is_byte; lia.
  - unfold records. apply bytes_concat. apply Forall_map. eapply Forall_impl; [|exact HP]. intros p Hp'. now apply bytes_firstn.
Qed.

(** A header of a supported kind. *)
Lemma written_las_file sv h ps : fresh_ok sv h -> Z.of_nat (length ps) < 2 ^ 32 ->
  Forall (fun p => bytes_ok (p_data p)) ps ->
  h_sig h = str "LASF" -> h_vmaj h = 1 -> h_vmin h <= 3 -> 0 <= get_format h <= 3 -> las_file (file_image sv h ps).
Proof.
  intros HF Hn HB Hs Hmj Hmn Hf.
  destruct (written_fields sv h ps HF ltac:(lia) Hn) as (E0&E24&E25&E94&E96&E100&E104&E105&E107&_).
  destruct (written_vlrs_read sv h ps HF ltac:(lia) Hn) as (_ & _ & V3).
  destruct (fresh_bounds sv h HF) as (B1 & B2 & B3 & B4).
  pose proof (file_header_wf sv h (Z.of_nat (length ps)) HF) as WF. pose proof (hdr_bytes_len _ WF) as HL.
  unfold las_file. rewrite E0, E24, E25, E94, E96, E104, E100.
  split; [now apply file_image_bytes|]. split.
  { unfold file_image. destruct (then_at_split (hdr_bytes (file_header sv h (Z.of_nat (length ps)))) (Z.to_nat (h_hsize h))
          (fresh_tail sv h ++ records (get_record_length h) ps)) as [rest ->]. rewrite app_length. lia. }
  split; [exact Hs|]. split; [exact Hmj|]. split; [exact Hmn|]. split; [lia|]. split; [lia|].
  intros Hv. apply V3. intros E. rewrite E in Hv. cbn in Hv. lia.
Qed.

Lemma has_id_norm name id v : has_id name id (vlr_norm v) = has_id name id v.
Proof. unfold has_id, vlr_norm. cbn [v_user v_id]. rewrite until_nul_pad. now rewrite until_nul_id by apply until_nul_no_nul. Qed.

Lemma written_no_schema sv h ps : fresh_ok sv h -> Z.of_nat (length ps) < 2 ^ 32 -> 0 <= get_format h <= 3 ->
  Forall (fun v => has_id "liblas" 7 v = false) (written_vlrs sv h) -> no_schema_vlr (file_image sv h ps).
Proof.
  intros HF Hn Hf HV. unfold no_schema_vlr. destruct (written_vlrs_read sv h ps HF ltac:(lia) Hn) as (-> & _).
  apply Forall_map. eapply Forall_impl; [|exact HV]. intros v Hv. cbv beta. now rewrite has_id_norm.
Qed.

Lemma written_finite sv h ps : fresh_ok sv h -> Z.of_nat (length ps) < 2 ^ 32 -> 0 <= get_format h <= 3 ->
  Forall (fun x => f64_fin x = true) [x_of (h_scale h); y_of (h_scale h); z_of (h_scale h); x_of (h_offset h); y_of (h_offset h); z_of (h_offset h)] ->
  finite_scaling (file_image sv h ps).
Proof.
  intros HF Hn Hf HV. destruct (written_fields sv h ps HF ltac:(lia) Hn) as (_&_&_&_&_&_&_&_&_&E1&E2).
  unfold bits3 in E1, E2.
  assert (A1 := f_equal (fun t => fst (fst t)) E1). assert (A2 := f_equal (fun t => snd (fst t)) E1). assert (A3 := f_equal snd E1).
  assert (B1 := f_equal (fun t => fst (fst t)) E2). assert (B2 := f_equal (fun t => snd (fst t)) E2). assert (B3 := f_equal snd E2).
  cbn [fst snd] in *. unfold finite_scaling.
  repeat match goal with H : Forall _ (_ :: _) |- _ => inversion H; clear H; subst end.
  repeat (constructor; [first [rewrite A1|rewrite A2|rewrite A3|rewrite B1|rewrite B2|rewrite B3]; rewrite f64_of_bits_bits; assumption|]). constructor.
Qed.

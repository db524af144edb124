(** Proofs about the writer: header block. *)
From Coq Require Import ZArith List Bool Lia String.
From Coq Require Import ZifyBool ZifyNat.
Import ListNotations.
From Verif Require Import Outcome Bytes Float64 CStr Vlr_Model Schema_Model Header_Model Point_Model
  Stream_Model Stream_Proofs Writer_Model IO_Spec.
Local Open Scope Z_scope.
Notation length := List.length.

Definition hdr_bytes (h : header) : list Z := List.concat (header_chunks h).

Lemma get_system_id_len h : length (h_sysid h) = 32%nat -> length (get_system_id true h) = 32%nat.
Proof.
  intros H. unfold get_system_id, eSystemIdSize. cbn [andb].
  pose proof (until_nul_length (h_sysid h)) as L.
  destruct (Nat.ltb_spec (length (until_nul (h_sysid h))) 32); [apply pad_to_length; lia|lia].
Qed.
Lemma get_software_id_len h : length (h_swid h) = 32%nat -> length (get_software_id true h) = 32%nat.
Proof.
  intros H. unfold get_software_id, eSoftwareIdSize. cbn [andb].
  pose proof (until_nul_length (h_swid h)) as L.
  destruct (Nat.ltb_spec (length (until_nul (h_swid h))) 32); [apply pad_to_length; lia|lia].
Qed.
Lemma get_system_id_text h : until_nul (get_system_id true h) = get_system_id false h.
Proof.
  unfold get_system_id. cbn [andb]. destruct (_ <? _)%nat; [rewrite until_nul_pad|];
    apply until_nul_id, until_nul_no_nul.
Qed.
Lemma get_software_id_text h : until_nul (get_software_id true h) = get_software_id false h.
Proof.
  unfold get_software_id. cbn [andb]. destruct (_ <? _)%nat; [rewrite until_nul_pad|];
    apply until_nul_id, until_nul_no_nul.
Qed.

Lemma guid_swap_len d : length (guid_swap d) = length d.
Proof. do 8 (destruct d as [|? d]; [reflexivity|]). reflexivity. Qed.
Lemma guid_swap_swap d : length d = 16%nat -> guid_swap (guid_swap d) = d.
Proof. intros H. do 8 (destruct d as [|? d]; [discriminate H|]). reflexivity. Qed.

Lemma concat_le4_len l : length (List.concat (map le4 l)) = (4 * length l)%nat.
Proof.
  induction l as [|x l IH]; [reflexivity|]. cbn [map List.concat].
  rewrite app_length, IH. unfold le4. rewrite le_enc_length. cbn [length]. lia.
Qed.

(** Chunk lengths for versions other than x.0 and for x.0. *)
Definition chunk_lens : list nat :=
  [4;2;2;16;1;1;32;32;2;2;2;4;4;1;2;4;20;8;8;8;8;8;8;8;8;8;8;8;8]%nat.
Definition chunk_lens0 : list nat :=
  [4;4;16;1;1;32;32;2;2;2;4;4;1;2;4;20;8;8;8;8;8;8;8;8;8;8;8;8]%nat.

Lemma header_chunks_lens h : header_wf h ->
  map (@length Z) (header_chunks h) = if h_vmin h =? 0 then chunk_lens0 else chunk_lens.
Proof.
  intros (Hs & _ & _ & _ & Hg & _ & _ & _ & Hsy & _ & Hsw & _ & _ & _ & _ & _ & _ & _ & Hb & _).
  unfold eFileSignatureSize, eSystemIdSize, eSoftwareIdSize, ePointsByReturnSize in *.
  unfold header_chunks. rewrite !map_app.
  cbn [map]. unfold le1, le2, le4, led. rewrite guid_swap_len, !le_enc_length, Hg.
  rewrite get_system_id_len, get_software_id_len by assumption.
  fold le4. rewrite concat_le4_len, firstn_length, Hb.
  unfold get_file_signature. rewrite Hs.
  destruct (h_vmin h =? 0); cbn [map]; rewrite !le_enc_length; reflexivity.
Qed.

Lemma hdr_bytes_len h : header_wf h -> length (hdr_bytes h) = 227%nat.
Proof.
  intros H. unfold hdr_bytes. rewrite concat_length, header_chunks_lens by assumption.
  destruct (h_vmin h =? 0); reflexivity.
Qed.

Lemma hdr_slice h rest k c o n : header_wf h ->
  nth_error (header_chunks h) k = Some c ->
  o = offset_of (if h_vmin h =? 0 then chunk_lens0 else chunk_lens) k -> n = length c ->
  slice (hdr_bytes h ++ rest) o n = c.
Proof.
  intros H Hk -> ->. rewrite <- (header_chunks_lens h H). now apply chunk_slice.
Qed.

Lemma u_at_hdr h rest k w z o : header_wf h -> h_vmin h <> 0 ->
  nth_error (header_chunks h) k = Some (le_enc w z) -> 0 <= z < pow256 w ->
  o = offset_of chunk_lens k -> u_at (hdr_bytes h ++ rest) o w = z.
Proof.
  intros H Hv Hk Hz Ho. unfold u_at. rewrite (hdr_slice h rest k (le_enc w z)); auto.
  - now apply le_dec_enc_small.
  - rewrite (proj2 (Z.eqb_neq _ _) Hv). exact Ho.
  - now rewrite le_enc_length.
Qed.

Lemma hdr_chunks_v h : h_vmin h <> 0 -> header_chunks h =
  [ get_file_signature h; le2 (h_srcid h); le2 (h_reserved h); guid_swap (h_guid h); le1 (h_vmaj h); le1 (h_vmin h);
    get_system_id true h; get_software_id true h;
    le2 (h_doy h); le2 (h_year h); le2 (h_hsize h); le4 (h_doff h); le4 (h_nvlr h);
    le1 (if h_comp h then Z.lor (get_format h mod 256) 128 else get_format h mod 256);
    le2 (get_record_length h); le4 (h_npts h);
    List.concat (map le4 (firstn 5 (h_byret h)));
    led (x_of (h_scale h)); led (y_of (h_scale h)); led (z_of (h_scale h));
    led (x_of (h_offset h)); led (y_of (h_offset h)); led (z_of (h_offset h));
    led (x_of (h_max h)); led (x_of (h_min h));
    led (y_of (h_max h)); led (y_of (h_min h));
    led (z_of (h_max h)); led (z_of (h_min h)) ].
Proof. intros H. unfold header_chunks. rewrite (proj2 (Z.eqb_neq _ _) H). reflexivity. Qed.

Lemma in_unsigned_pow n z : in_unsigned (8 * Z.of_nat n) z -> 0 <= z < pow256 n.
Proof. unfold in_unsigned. rewrite pow256_pow2. auto. Qed.

Lemma byret_slice h rest i : header_wf h -> h_vmin h <> 0 -> (i < 5)%nat ->
  u_at (hdr_bytes h ++ rest) (111 + 4 * i) 4 = nth i (h_byret h) 0.
Proof.
  intros H Hv Hi. pose proof H as (_ & _ & _ & _ & _ & _ & _ & _ & _ & _ & _ & _ & _ & _ & _ & _ & _ & _ & Hb & Hbf & _).
  unfold ePointsByReturnSize in Hb.
  assert (E : slice (hdr_bytes h ++ rest) 111 20 = List.concat (map le4 (firstn 5 (h_byret h)))).
  { apply (hdr_slice h rest 16); auto.
    - rewrite hdr_chunks_v by assumption. reflexivity.
    - rewrite (proj2 (Z.eqb_neq _ _) Hv). reflexivity.
    - rewrite concat_le4_len, firstn_length, Hb. reflexivity. }
  unfold u_at. rewrite <- (slice_slice (hdr_bytes h ++ rest) 111 20 (4 * i) 4) by lia. rewrite E.
  destruct (h_byret h) as [|b0 [|b1 [|b2 [|b3 [|b4 r]]]]]; try discriminate Hb.
  assert (R : forall k x, nth_error [b0;b1;b2;b3;b4] k = Some x -> in_unsigned 32 x).
  { intros k x Hk. rewrite Forall_forall in Hbf. apply Hbf.
    change (b0 :: b1 :: b2 :: b3 :: b4 :: r) with ([b0;b1;b2;b3;b4] ++ r).
    apply in_or_app. left. eapply nth_error_In; eauto. }
  cbn [firstn]. rewrite <- (app_nil_r (List.concat _)).
  assert (G : forall k x, nth_error [b0;b1;b2;b3;b4] k = Some x ->
    le_dec (slice (List.concat (map le4 [b0;b1;b2;b3;b4]) ++ []) (4 * k) 4) = x).
  { intros k x Hk. rewrite <- (le_dec_enc_small 4 x) by (apply in_unsigned_pow, (R k x Hk)). f_equal.
    pose proof (chunk_slice (map le4 [b0;b1;b2;b3;b4]) [] k (le4 x)) as C.
    rewrite nth_error_map, Hk in C. specialize (C eq_refl).
    unfold le4 in C at 3. rewrite le_enc_length in C. change (le_enc 4 x) with (le4 x).
    etransitivity; [|exact C]. f_equal.
    cbn [map]. unfold le4. rewrite !le_enc_length.
    do 5 (destruct k as [|k]; [reflexivity|]). destruct k; discriminate Hk. }
  do 5 (destruct i as [|i]; [apply G; reflexivity|]). lia.
Qed.

Lemma firstn5_nth (l : list Z) : length l = 7%nat ->
  firstn 5 l = [nth 0 l 0; nth 1 l 0; nth 2 l 0; nth 3 l 0; nth 4 l 0].
Proof. intros H. do 5 (destruct l as [|? l]; [discriminate H|]). reflexivity. Qed.

Lemma f64_bits_pow x : 0 <= f64_bits x < pow256 8.
Proof. pose proof (f64_bits_range x). change (pow256 8) with (2 ^ 64). lia. Qed.

(** A header block written by the library, parsed by the table of the LAS
    specification. *)
Lemma pub_of_hdr_bytes h rest : header_wf h -> h_vmin h <> 0 -> h_comp h = false ->
  0 <= get_format h < 256 ->
  pub_of_file (hdr_bytes h ++ rest) = pub_of_header h.
Proof.
  intros H Hv Hc Hf. pose proof (hdr_chunks_v h Hv) as CV.
  pose proof H as (Hs & Hsb & Hsrc & Hres & Hg & Hgb & Hmaj & Hmin & Hsy & Hsyb & Hsw & Hswb & Hdoy & Hyear & Hhs & Hdo & Hnv & Hnp & Hb & Hbf & Hvl & Hsr & Hpad).
  unfold eFileSignatureSize, eSystemIdSize, eSoftwareIdSize, ePointsByReturnSize in *.
  assert (Hrl : 0 <= get_record_length h < pow256 2).
  { unfold get_record_length. change (pow256 2) with (2 ^ 16). apply Z.mod_pos_bound. lia. }
  unfold pub_of_file, pub_of_header, bits3.
  assert (S : forall k c o n, nth_error (header_chunks h) k = Some c -> o = offset_of chunk_lens k ->
     n = length c -> slice (hdr_bytes h ++ rest) o n = c).
  { intros k c o n E1 E2 E3. apply (hdr_slice h rest k); auto. now rewrite (proj2 (Z.eqb_neq _ _) Hv). }
  assert (UA : forall k w z o, nth_error (header_chunks h) k = Some (le_enc w z) -> 0 <= z < pow256 w ->
     o = offset_of chunk_lens k -> u_at (hdr_bytes h ++ rest) o w = z).
  { intros k w z o. apply u_at_hdr; auto. }
  rewrite CV in S, UA. unfold le1, le2, le4, led in UA.
  rewrite (S 0%nat (get_file_signature h)) by (reflexivity || (symmetry; exact Hs)).
  rewrite (S 6%nat (get_system_id true h)) by (reflexivity || (symmetry; now apply get_system_id_len)).
  rewrite (S 7%nat (get_software_id true h)) by (reflexivity || (symmetry; now apply get_software_id_len)).
  rewrite get_system_id_text, get_software_id_text.
  rewrite (UA 1%nat _ (h_srcid h)) by (reflexivity || now apply in_unsigned_pow).
  rewrite (UA 2%nat _ (h_reserved h)) by (reflexivity || now apply in_unsigned_pow).
  rewrite (UA 4%nat _ (h_vmaj h)) by (reflexivity || now apply in_unsigned_pow).
  rewrite (UA 5%nat _ (h_vmin h)) by (reflexivity || now apply in_unsigned_pow).
  rewrite (UA 8%nat _ (h_doy h)) by (reflexivity || now apply in_unsigned_pow).
  rewrite (UA 9%nat _ (h_year h)) by (reflexivity || now apply in_unsigned_pow).
  rewrite (UA 10%nat _ (h_hsize h)) by (reflexivity || now apply in_unsigned_pow).
  rewrite (UA 11%nat _ (h_doff h)) by (reflexivity || now apply in_unsigned_pow).
  rewrite (UA 12%nat _ (h_nvlr h)) by (reflexivity || now apply in_unsigned_pow).
  rewrite (UA 13%nat _ (get_format h)).
  2:{ rewrite Hc, Z.mod_small by assumption. reflexivity. }
  2:{ exact Hf. }
  2:{ reflexivity. }
  rewrite (UA 14%nat _ (get_record_length h)) by (reflexivity || assumption).
  rewrite (UA 15%nat _ (h_npts h)) by (reflexivity || now apply in_unsigned_pow).
  rewrite (firstn5_nth _ Hb).
  change (u_at (hdr_bytes h ++ rest) 111 4) with (u_at (hdr_bytes h ++ rest) (111 + 4 * 0) 4).
  change (u_at (hdr_bytes h ++ rest) 115 4) with (u_at (hdr_bytes h ++ rest) (111 + 4 * 1) 4).
  change (u_at (hdr_bytes h ++ rest) 119 4) with (u_at (hdr_bytes h ++ rest) (111 + 4 * 2) 4).
  change (u_at (hdr_bytes h ++ rest) 123 4) with (u_at (hdr_bytes h ++ rest) (111 + 4 * 3) 4).
  change (u_at (hdr_bytes h ++ rest) 127 4) with (u_at (hdr_bytes h ++ rest) (111 + 4 * 4) 4).
  rewrite !byret_slice by (assumption || lia).
  rewrite (UA 17%nat _ _ 131%nat eq_refl (f64_bits_pow _) eq_refl).
  rewrite (UA 18%nat _ _ 139%nat eq_refl (f64_bits_pow _) eq_refl).
  rewrite (UA 19%nat _ _ 147%nat eq_refl (f64_bits_pow _) eq_refl).
  rewrite (UA 20%nat _ _ 155%nat eq_refl (f64_bits_pow _) eq_refl).
  rewrite (UA 21%nat _ _ 163%nat eq_refl (f64_bits_pow _) eq_refl).
  rewrite (UA 22%nat _ _ 171%nat eq_refl (f64_bits_pow _) eq_refl).
  rewrite (UA 23%nat _ _ 179%nat eq_refl (f64_bits_pow _) eq_refl).
  rewrite (UA 24%nat _ _ 187%nat eq_refl (f64_bits_pow _) eq_refl).
  rewrite (UA 25%nat _ _ 195%nat eq_refl (f64_bits_pow _) eq_refl).
  rewrite (UA 26%nat _ _ 203%nat eq_refl (f64_bits_pow _) eq_refl).
  rewrite (UA 27%nat _ _ 211%nat eq_refl (f64_bits_pow _) eq_refl).
  rewrite (UA 28%nat _ _ 219%nat eq_refl (f64_bits_pow _) eq_refl).
  reflexivity.
Qed.

Lemma guid_of_hdr_bytes h rest : header_wf h -> h_vmin h <> 0 ->
  slice (hdr_bytes h ++ rest) 8 16 = guid_swap (h_guid h).
Proof.
  intros H Hv. apply (hdr_slice h rest 3); auto.
  - rewrite hdr_chunks_v by assumption. reflexivity.
  - rewrite (proj2 (Z.eqb_neq _ _) Hv). reflexivity.
  - rewrite guid_swap_len. symmetry. apply H.
Qed.

(** ** VLRs *)
Lemma vlr_get_user_pad v : length (v_user v) = 16%nat -> vlr_get_user true v = pad_to 16 (until_nul (v_user v)).
Proof.
  intros H. unfold vlr_get_user. cbn [andb]. rewrite H. pose proof (until_nul_length (v_user v)).
  destruct (Nat.ltb_spec (length (until_nul (v_user v))) 16); [reflexivity|].
  unfold pad_to. replace (16 - length (until_nul (v_user v)))%nat with 0%nat by lia. now rewrite app_nil_r.
Qed.
Lemma vlr_get_desc_pad v : length (v_desc v) = 32%nat -> vlr_get_desc true v = pad_to 32 (until_nul (v_desc v)).
Proof.
  intros H. unfold vlr_get_desc. cbn [andb]. rewrite H. pose proof (until_nul_length (v_desc v)).
  destruct (Nat.ltb_spec (length (until_nul (v_desc v))) 32); [reflexivity|].
  unfold pad_to. replace (32 - length (until_nul (v_desc v)))%nat with 0%nat by lia. now rewrite app_nil_r.
Qed.
(** The declared length is the payload size. *)
Definition vlr_consistent (v : vlr) : Prop := v_size v = Z.of_nat (length (v_data v)).

Lemma vlr_chunks_image v : vlr_wf v -> vlr_consistent v -> List.concat (vlr_chunks v) = vlr_image v.
Proof.
  intros (Hu & Hd & _) Hc. unfold vlr_chunks, vlr_image. cbn [List.concat].
  rewrite vlr_get_user_pad, vlr_get_desc_pad by assumption. rewrite Hc, app_nil_r. reflexivity.
Qed.
Lemma vlr_image_len v : vlr_wf v -> Z.of_nat (length (vlr_image v)) = 54 + Z.of_nat (length (v_data v)).
Proof.
  intros (Hu & Hd & _). unfold eUserIdSize, eDescriptionSize in *. unfold vlr_image. rewrite !app_length, !le_enc_length.
  pose proof (until_nul_length (v_user v)). pose proof (until_nul_length (v_desc v)).
  rewrite !pad_to_length by lia. lia.
Qed.
Lemma vlrs_image_len l : Forall vlr_wf l -> Z.of_nat (length (vlrs_image l)) = vlrs_size l.
Proof.
  induction 1 as [|v l Hv Hl IH]; [reflexivity|].
  unfold vlrs_image in *. cbn [map List.concat vlrs_size fold_right]. rewrite app_length.
  pose proof (vlr_image_len v Hv). fold (vlrs_size l). lia.
Qed.
Lemma vlrs_size_nonneg l : 0 <= vlrs_size l.
Proof. induction l as [|v l IH]; cbn [vlrs_size fold_right]; [lia|]. fold (vlrs_size l). lia. Qed.
Lemma vlrs_size_app a b : vlrs_size (a ++ b) = vlrs_size a + vlrs_size b.
Proof. induction a as [|v a IH]; [reflexivity|]. cbn [app vlrs_size fold_right]. fold (vlrs_size (a ++ b)) (vlrs_size a). lia. Qed.

Lemma vlr_sizes_ok l : vlr_sizes (length l) l = Ok (vlrs_size l mod 2 ^ 32).
Proof.
  induction l as [|v l IH]; [reflexivity|].
  cbn [length vlr_sizes]. rewrite IH. cbn [obind vlrs_size fold_right]. fold (vlrs_size l).
  unfold vlr_total_size. rewrite <- Z.add_mod by lia. do 2 f_equal.
Qed.
Lemma vlr_block_ok h : h_nvlr h = Z.of_nat (length (h_vlrs h)) -> vlrs_size (h_vlrs h) < 2 ^ 32 ->
  vlr_block_size h = Ok (vlrs_size (h_vlrs h)).
Proof.
  intros E L. unfold vlr_block_size. rewrite E, Nat2Z.id, vlr_sizes_ok.
  rewrite Z.mod_small; [reflexivity|]. pose proof (vlrs_size_nonneg (h_vlrs h)). lia.
Qed.

Lemma write_vlr_loop_ok l D : Forall vlr_wf l -> Forall vlr_consistent l ->
  write_vlr_loop (length l) l (os_at D (length D)) =
  Ok (os_at (D ++ vlrs_image l) (length D + length (vlrs_image l))).
Proof.
  intros Hw Hc. revert D. induction l as [|v l IH]; intros D.
  - cbn [length write_vlr_loop vlrs_image map List.concat]. now rewrite app_nil_r, Nat.add_0_r.
  - inversion Hw; inversion Hc; subst. cbn [length write_vlr_loop]. rewrite os_write_all_end. cbn [obind].
    rewrite vlr_chunks_image by assumption.
    replace (length D + length (vlr_image v))%nat with (length (D ++ vlr_image v)) by (rewrite app_length; lia).
    rewrite IH by assumption. unfold vlrs_image. cbn [map List.concat].
    rewrite <- app_assoc, !app_length. rewrite Nat.add_assoc. reflexivity.
Qed.
Lemma vlr_image_nonempty v : vlr_image v <> [].
Proof. unfold vlr_image. cbn. discriminate. Qed.
Lemma write_vlr_loop_gap l D p : Forall vlr_wf l -> Forall vlr_consistent l -> (length D <= p)%nat -> l <> [] ->
  write_vlr_loop (length l) l (os_at D p) =
  Ok (os_at (D ++ repeat 0 (p - length D) ++ vlrs_image l) (p + length (vlrs_image l))).
Proof.
  intros Hw Hc Hp Hl. destruct l as [|v l]; [congruence|]. inversion Hw; inversion Hc; subst.
  cbn [length write_vlr_loop]. rewrite os_write_all_gap.
  2: lia.
  2: rewrite vlr_chunks_image by assumption; apply vlr_image_nonempty.
  cbn [obind]. rewrite vlr_chunks_image by assumption.
  set (D1 := D ++ repeat 0 (p - length D) ++ vlr_image v).
  assert (E : (p + length (vlr_image v) = length D1)%nat).
  { unfold D1. rewrite !app_length, repeat_length. lia. }
  rewrite E, write_vlr_loop_ok by assumption. unfold vlrs_image. cbn [map List.concat].
  rewrite app_length, Nat.add_assoc, E. unfold D1. now rewrite <- !app_assoc.
Qed.

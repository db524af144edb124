(** Version 1.0 header blocks: the reserved word is written over four bytes. *)
From Coq Require Import ZArith List Bool Lia String.
From Coq Require Import ZifyBool ZifyNat.
Import ListNotations.
From Verif Require Import Outcome Bytes Float64 CStr Vlr_Model Schema_Model Header_Model Point_Model
  Stream_Model Stream_Proofs Writer_Model IO_Spec Writer_Proofs.
Local Open Scope Z_scope.
Local Notation length := List.length (only parsing).

(** What a version 1.0 file stores in place of source id and reserved. *)
Definition as_v10 (h : header) : header := h_upd_reserved (h_upd_srcid h (h_reserved h)) 0.
Definition stored_view (h : header) : header := if h_vmin h =? 0 then as_v10 h else h.

Lemma slice_patch1 A x y C o n : (o + n <= length A \/ length A + 1 <= o)%nat ->
  slice (A ++ [x] ++ C) o n = slice (A ++ [y] ++ C) o n.
Proof.
  intros [H|H].
  - rewrite !slice_app_l by lia. reflexivity.
  - rewrite (slice_app_r A ([x] ++ C)), (slice_app_r A ([y] ++ C)) by lia. cbn [app]. destruct (o - length A)%nat as [|k] eqn:E; [lia|]. reflexivity.
Qed.

Lemma le4_split r : 0 <= r < 2 ^ 16 -> le4 r = le2 r ++ le2 0.
Proof.
  intros H. unfold le4, le2. change 4%nat with (2 + 2)%nat.
  assert (E : le_enc 4 r = le_enc 2 r ++ le_enc 2 (r / 2 ^ 16)).
  { cbn [le_enc app]. rewrite !Z.div_div by lia. reflexivity. }
  change (2 + 2)%nat with 4%nat. rewrite E, (Z.div_small r) by lia. reflexivity.
Qed.

Lemma pub_of_hdr_bytes0 h rest : header_wf h -> h_vmin h = 0 -> h_comp h = false -> 0 <= get_format h < 256 ->
  pub_of_file (hdr_bytes h ++ rest) = pub_of_header (as_v10 h).
Proof.
  intros H Hv Hc Hf. set (h' := h_upd_vmin (as_v10 h) 1).
  pose proof H as (Hs & Hsb & Hsrc & Hres & Hg & Hgb & Hmaj & Hmin & Hsy & Hsyb & Hsw & Hswb & Hdoy & Hyear & Hhs & Hdo & Hnv & Hnp & Hb & Hbf & Hvl & Hsr & Hpad).
  assert (W : header_wf h').
  { unfold header_wf, h', as_v10. cbn. unfold in_unsigned in *. repeat (split; [assumption || lia|]). lia. }
  set (A := get_file_signature h ++ le2 (h_reserved h) ++ le2 0 ++ guid_swap (h_guid h) ++ le1 (h_vmaj h)).
  assert (LA : length A = 25%nat).
  { unfold A. rewrite !app_length. unfold le2, le1. rewrite !le_enc_length, guid_swap_len, Hg. unfold get_file_signature. rewrite Hs. reflexivity. }
  set (C := List.concat (skipn 6 (header_chunks h'))).
  assert (E1 : hdr_bytes h' = A ++ [1] ++ C).
  { unfold hdr_bytes. rewrite <- (firstn_skipn 6 (header_chunks h')), concat_app. fold C.
    rewrite app_assoc. f_equal. unfold header_chunks. change (h_vmin h') with 1. cbn [Z.eqb app firstn List.concat].
    unfold A. rewrite <- !app_assoc. reflexivity. }
  assert (E0 : hdr_bytes h = A ++ [0] ++ C).
  { unfold hdr_bytes. rewrite <- (firstn_skipn 5 (header_chunks h)), concat_app.
    rewrite app_assoc. f_equal.
    - unfold header_chunks. rewrite Hv. cbn [Z.eqb app firstn List.concat]. rewrite le4_split by exact Hres.
      unfold A. rewrite <- !app_assoc. reflexivity.
    - unfold C. f_equal. unfold header_chunks. rewrite Hv. reflexivity. }
  pose proof (pub_of_hdr_bytes h' rest W ltac:(cbn; lia) Hc Hf) as P.
  assert (SL : forall o n, (o + n <= 25 \/ 26 <= o)%nat -> slice (hdr_bytes h ++ rest) o n = slice (hdr_bytes h' ++ rest) o n).
  { intros o n Ho. rewrite E0, E1, <- !app_assoc. apply slice_patch1. rewrite LA. lia. }
  assert (V0 : u_at (hdr_bytes h ++ rest) 25 1 = 0).
  { unfold u_at. rewrite E0, <- !app_assoc. rewrite <- LA. rewrite slice_app_mid by reflexivity. reflexivity. }
  assert (P2 : pub_of_file (hdr_bytes h ++ rest) =
     let p := pub_of_file (hdr_bytes h' ++ rest) in
     mkPub (ph_sig p) (ph_source p) (ph_reserved p) (ph_vmaj p) 0 (ph_sysid p) (ph_swid p) (ph_doy p) (ph_year p) (ph_hsize p)
       (ph_doff p) (ph_nvlr p) (ph_format p) (ph_reclen p) (ph_npts p) (ph_returns p) (ph_scale p) (ph_offset p) (ph_max p) (ph_min p)).
  { cbv zeta. unfold pub_of_file. rewrite V0. unfold u_at. cbn [ph_sig ph_source ph_reserved ph_vmaj ph_sysid ph_swid ph_doy ph_year ph_hsize
       ph_doff ph_nvlr ph_format ph_reclen ph_npts ph_returns ph_scale ph_offset ph_max ph_min].
    rewrite !SL by lia. reflexivity. }
  rewrite P2, P. cbv zeta. unfold pub_of_header. cbn [ph_sig ph_source ph_reserved ph_vmaj ph_sysid ph_swid ph_doy ph_year ph_hsize
       ph_doff ph_nvlr ph_format ph_reclen ph_npts ph_returns ph_scale ph_offset ph_max ph_min].
  rewrite <- Hv at 1. reflexivity.
Qed.

Lemma pub_of_hdr h rest : header_wf h -> h_comp h = false -> 0 <= get_format h < 256 ->
  pub_of_file (hdr_bytes h ++ rest) = pub_of_header (stored_view h).
Proof.
  intros. unfold stored_view. destruct (Z.eqb_spec (h_vmin h) 0); [now apply pub_of_hdr_bytes0|now apply pub_of_hdr_bytes].
Qed.

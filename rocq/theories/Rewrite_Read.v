(** What is found in a file made of a header block, VLRs, some bytes, records and
    a tail. *)
From Coq Require Import ZArith List Bool Lia String.
From Coq Require Import ZifyBool ZifyNat.
Import ListNotations.
From Verif Require Import Outcome Bytes Float64 CStr Vlr_Model Schema_Model Header_Model Point_Model
  Stream_Model Stream_Proofs Writer_Model IO_Spec Writer_Api Writer_Proofs Writer_File Writer_V10 Reader_Proofs Reader_Vlrs Float64_Proofs Reader_Spec Writer_RT Writer_Append.
Local Open Scope Z_scope.
Local Notation length := List.length (only parsing).

Definition laid_out (H : header) (L : list vlr) (X : list Z) (ps : list point) (T : list Z) : list Z :=
  then_at (hdr_bytes H) (Z.to_nat (h_hsize H)) (vlrs_image L ++ X ++ records (get_record_length H) ps ++ T).
Definition layout_ok (H : header) (L : list vlr) (X : list Z) (ps : list point) : Prop :=
  header_wf H /\ h_comp H = false /\ 0 <= get_format H < 256 /\ Forall vlr_consistent L /\ 227 <= h_hsize H < 2 ^ 16 /\
  h_nvlr H = Z.of_nat (length L) /\ h_doff H = h_hsize H + vlrs_size L + Z.of_nat (length X) /\ h_npts H = Z.of_nat (length ps) /\
  Forall (point_fits (get_record_length H)) ps /\ 0 < get_record_length H.

Lemma records_slice_tail rl ps T : 0 <= rl -> Forall (point_fits rl) ps -> forall k p, nth_error ps k = Some p ->
  forall A, slice (A ++ records rl ps ++ T) (length A + k * Z.to_nat rl) (Z.to_nat rl) = record_of rl p.
Proof.
  intros H0 HF k p Hk A. rewrite app_assoc, slice_app_l; [now apply records_slice|].
  rewrite app_length, records_len by assumption. assert (k < length ps)%nat by (apply nth_error_Some; congruence). nia.
Qed.

Lemma laid_out_read H L X ps T : layout_ok H L X ps -> let G := laid_out H L X ps T in
  pub_of_file G = pub_of_header (stored_view H) /\ slice G 8 16 = guid_swap (h_guid H) /\
  file_vlrs G = map vlr_norm L /\ file_vlrs_end G = Z.to_nat (h_hsize H + vlrs_size L) /\
  (0 < u_at G 100 4 -> (file_vlrs_end G <= length G)%nat) /\ complete G /\
  (forall k p, nth_error ps k = Some p -> file_record G (Z.of_nat k) = record_of (get_record_length H) p).
Proof.
  intros (Hwf & Hc & Hf & HL & Hh & Hn & Hd & Hp & HP & Hr) G.
  pose proof (hdr_bytes_len _ Hwf) as LD.
  assert (HI : Forall vlr_wf L) by (eapply Forall_impl; [|exact HL]; intros x [Hx _]; exact Hx).
  pose proof (vlrs_image_len _ HI) as IL. pose proof (vlrs_size_nonneg L) as S0.
  assert (EG : exists rest, G = hdr_bytes H ++ rest) by (apply then_at_split). 
  assert (P : pub_of_file G = pub_of_header (stored_view H)).
  { destruct EG as [rest ->]. now apply pub_of_hdr. }
  split; [exact P|]. split; [destruct EG as [rest ->]; now apply guid_of_hdr|].
  destruct (stored_view_fields H) as (S1&S2&S3&S4&S5&S6&S7&S8&S9&S10).
  assert (E94 : u_at G 94 2 = h_hsize H) by (transitivity (ph_hsize (pub_of_file G)); [reflexivity|rewrite P; exact S1]).
  assert (E96 : u_at G 96 4 = h_doff H) by (transitivity (ph_doff (pub_of_file G)); [reflexivity|rewrite P; exact S2]).
  assert (E100 : u_at G 100 4 = Z.of_nat (length L)) by (transitivity (ph_nvlr (pub_of_file G)); [reflexivity|rewrite P; cbn [ph_nvlr pub_of_header]; lia]).
  assert (E105 : u_at G 105 2 = get_record_length H).
  { transitivity (ph_reclen (pub_of_file G)); [reflexivity|rewrite P; cbn [ph_reclen pub_of_header]; unfold get_record_length; now rewrite S8]. }
  assert (E107 : u_at G 107 4 = Z.of_nat (length ps)) by (transitivity (ph_npts (pub_of_file G)); [reflexivity|rewrite P; cbn [ph_npts pub_of_header]; lia]).
  clear S1 S2 S3 S4 S5 S6 S7 S8 S9 S10 P EG.
  set (A := hdr_bytes H ++ repeat 0 (Z.to_nat (h_hsize H) - length (hdr_bytes H))).
  assert (LA : length A = Z.to_nat (h_hsize H)) by (unfold A; rewrite app_length, repeat_length; lia).
  assert (EG : (vlrs_image L ++ X ++ records (get_record_length H) ps ++ T) <> [] -> G = A ++ vlrs_image L ++ X ++ records (get_record_length H) ps ++ T).
  { intros NE. unfold G, laid_out, A. rewrite <- app_assoc. destruct (vlrs_image L ++ X ++ records (get_record_length H) ps ++ T); [congruence|reflexivity]. }
  assert (V : file_vlrs G = map vlr_norm L /\ file_vlrs_end G = Z.to_nat (h_hsize H + vlrs_size L) /\ (0 < u_at G 100 4 -> (file_vlrs_end G <= length G)%nat)).
  { unfold file_vlrs, file_vlrs_end. rewrite E94, E100, Nat2Z.id. destruct L as [|v L'] eqn:EL.
    - cbn [List.length vlrs_at vlrs_end map vlrs_size fold_right]. rewrite Z.add_0_r. split; [reflexivity|]. split; [reflexivity|intros C; cbn in C; lia].
    - rewrite <- EL in *.
      assert (NE : vlrs_image L <> []).
      { rewrite EL. unfold vlrs_image. cbn [map List.concat]. pose proof (vlr_image_nonempty v). destruct (vlr_image v); [congruence|discriminate]. }
      rewrite EG by (intros C; apply app_eq_nil in C; tauto). rewrite <- LA.
      destruct (vlrs_at_image L A (X ++ records (get_record_length H) ps ++ T) HL) as [V1 V2]. rewrite V1, V2.
      split; [reflexivity|]. split; [lia|]. intros _. rewrite !app_length. lia. }
  destruct V as (V1 & V2 & V3). split; [exact V1|]. split; [exact V2|]. split; [exact V3|].
  assert (RL : length (records (get_record_length H) ps) = (length ps * Z.to_nat (get_record_length H))%nat) by (apply records_len; [lia|exact HP]).
  assert (EB : ps <> [] -> exists B, G = B ++ records (get_record_length H) ps ++ T /\ Z.of_nat (length B) = h_doff H).
  { intros Hne. exists (A ++ vlrs_image L ++ X). rewrite EG.
    - split; [now rewrite <- !app_assoc|]. rewrite !app_length. lia.
    - intros C. apply (f_equal (@length Z)) in C. rewrite !app_length, RL in C. destruct ps; [congruence|]. cbn [List.length] in C. lia. }
  split.
  - unfold complete, f_doff, f_reclen, f_npts. rewrite E96, E105, E107. split; [exact Hr|]. intros H0.
    destruct EB as (B & -> & LB); [intros ->; cbn in H0; lia|]. rewrite !app_length, RL. nia.
  - intros k p Hk. unfold file_record, f_doff, f_reclen. rewrite E96, E105.
    destruct EB as (B & -> & LB); [intros ->; destruct k; discriminate|].
    replace (Z.to_nat (h_doff H + Z.of_nat k * get_record_length H)) with (length B + k * Z.to_nat (get_record_length H))%nat by nia.
    apply records_slice_tail; [lia|assumption|assumption].
Qed.

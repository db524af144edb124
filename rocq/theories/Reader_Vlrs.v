(** Proofs about reading the VLR block. *)
From Coq Require Import ZArith List Bool Lia String.
From Coq Require Import ZifyBool ZifyNat.
Import ListNotations.
From Verif Require Import Outcome Bytes Float64 CStr Vlr_Model Schema_Model Header_Model Point_Model
  Stream_Model Stream_Proofs Reader_Model IO_Spec Reader_Proofs Writer_Model Writer_Proofs.
Local Open Scope Z_scope.
Local Notation length := List.length (only parsing).

Lemma pad_to_full n l : length l = n -> pad_to n l = l.
Proof. intros H. unfold pad_to. rewrite H, Nat.sub_diag. apply app_nil_r. Qed.

Lemma u_at_slice F p k a w : (a + w <= k)%nat -> u_at (slice F p k) a w = u_at F (p + a) w.
Proof. intros H. unfold u_at. now rewrite slice_slice. Qed.

Lemma read_vlr_ok F p old : bytes_ok F -> (vlr_end F p <= length F)%nat ->
  (match old with Some b => length b = 54%nat | None => True end) ->
  read_vlr (at_pos F p) old = Ok (vlr_at F p, slice F p 54, at_pos F (vlr_end F p)).
Proof.
  intros HB HL Ho. unfold vlr_end in *. unfold read_vlr. cbn [at_pos is_fail]. fold (at_pos F p).
  rewrite is_read_ok by lia.
  assert (EB : (match old with
                | Some o => Ok (patch o (slice F p 54))
                | None => if (length (slice F p 54) <? 54)%nat then UB UBUninit else Ok (slice F p 54)
                end) = Ok (slice F p 54)).
  { destruct old as [o|].
    - rewrite patch_full; [reflexivity|]. rewrite slice_length by lia. symmetry; exact Ho.
    - rewrite slice_length by lia. reflexivity. }
  rewrite EB. cbn [obind].
  assert (EL : vlrh_length (slice F p 54) = u_at F (p + 20) 2).
  { unfold vlrh_length. fold (slice (slice F p 54) 20 2). rewrite slice_slice by lia. reflexivity. }
  assert (EI : vlrh_id (slice F p 54) = u_at F (p + 18) 2).
  { unfold vlrh_id. fold (slice (slice F p 54) 18 2). rewrite slice_slice by lia. reflexivity. }
  assert (ER : vlrh_reserved (slice F p 54) = u_at F p 2).
  { unfold vlrh_reserved. change (firstn 2 (slice F p 54)) with (slice (slice F p 54) 0 2). rewrite slice_slice by lia. now rewrite Nat.add_0_r. }
  assert (EU : vlrh_user (slice F p 54) = slice F (p + 2) 16).
  { unfold vlrh_user. fold (slice (slice F p 54) 2 16). now rewrite slice_slice by lia. }
  assert (ED : vlrh_desc (slice F p 54) = slice F (p + 22) 32).
  { unfold vlrh_desc. fold (slice (slice F p 54) 22 32). now rewrite slice_slice by lia. }
  rewrite EL, EI, ER, EU, ED.
  pose proof (u_at_range F (p + 20) 2 HB) as RL.
  assert (ERD : (if 0 <? u_at F (p + 20) 2
           then read_n (at_pos F (p + 54)) (repeat 0 (Z.to_nat (u_at F (p + 20) 2)))
           else Ok ([], at_pos F (p + 54)))
          = Ok (slice F (p + 54) (vlr_len_at F p), at_pos F (p + 54 + vlr_len_at F p))).
  { destruct (Z.ltb_spec 0 (u_at F (p + 20) 2)) as [E|E].
    - rewrite read_n_ok by (rewrite repeat_length; unfold vlr_len_at in HL; lia).
      rewrite repeat_length. reflexivity.
    - assert (Z0 : vlr_len_at F p = 0%nat) by (unfold vlr_len_at; lia). rewrite Z0, Nat.add_0_r. reflexivity. }
  rewrite ERD. cbn [obind]. unfold vlr_set_user, vlr_new, vlr_set_reserved. cbn [v_user].
  rewrite repeat_length. rewrite (slice_length F (p + 2) 16) by lia.
  change (eUserIdSize <? 16)%nat with false. cbn iota. cbn [obind].
  unfold vlr_set_desc. cbn [v_desc v_data v_user v_reserved v_id v_size]. rewrite repeat_length.
  rewrite (slice_length F (p + 22) 32) by lia. change (eDescriptionSize <? 32)%nat with false. cbn iota. cbn [obind].
  unfold vlr_set_data, vlr_set_id, vlr_set_size. cbn [v_desc v_data v_user v_reserved v_id v_size].
  rewrite !(u_at_mod F _ 2 16) by (assumption || reflexivity).
  unfold eUserIdSize, eDescriptionSize.
  rewrite (pad_to_full 16) by (apply slice_length; lia).
  rewrite (pad_to_full 32) by (apply slice_length; lia). reflexivity.
Qed.

Lemma vlrs_end_ge n : forall F p, (p <= vlrs_end n F p)%nat.
Proof.
  induction n as [|n IH]; intros F p; cbn [vlrs_end]; [lia|].
  pose proof (IH F (vlr_end F p)). unfold vlr_end in *. lia.
Qed.
Lemma vlrs_at_length n : forall F p, length (vlrs_at n F p) = n.
Proof. induction n as [|n IH]; intros F p; cbn [vlrs_at List.length]; [reflexivity|now rewrite IH]. Qed.

(** n VLRs appended to the list of a header *)
Definition with_vlrs (h : header) (k : Z) (l : list vlr) : header := h_upd_vlrs h k (h_vlrs h ++ l).

Lemma read_vlr_loop_ok F n : forall p old h, bytes_ok F -> (vlrs_end n F p <= length F)%nat ->
  (match old with Some b => length b = 54%nat | None => True end) ->
  0 <= h_nvlr h -> h_nvlr h + Z.of_nat n < 2 ^ 32 ->
  read_vlr_loop n (at_pos F p) old h = Ok (with_vlrs h (h_nvlr h + Z.of_nat n) (vlrs_at n F p), at_pos F (vlrs_end n F p)).
Proof.
  induction n as [|n IH]; intros p old h HB HL Ho H0 H1; cbn [read_vlr_loop vlrs_end vlrs_at] in *.
  - rewrite Z.add_0_r. unfold with_vlrs. rewrite app_nil_r. destruct h; reflexivity.
  - pose proof (vlrs_end_ge n F (vlr_end F p)) as G.
    rewrite read_vlr_ok by (assumption || lia). cbn [obind].
    assert (E1 : h_nvlr (add_vlr h (vlr_at F p)) = h_nvlr h + 1).
    { unfold add_vlr. cbn [h_upd_vlrs h_nvlr]. apply Z.mod_small. lia. }
    rewrite IH; try assumption; try (rewrite E1; lia).
    2:{ apply slice_length. unfold vlr_end in *. lia. }
    rewrite E1. do 2 f_equal. unfold with_vlrs, add_vlr, h_upd_vlrs. cbn.
    rewrite <- app_assoc. cbn [app]. replace (h_nvlr h + 1 + Z.of_nat n) with (h_nvlr h + Z.of_nat (S n)) by lia. reflexivity.
Qed.

(** ** VLR block round trip *)
(** what is stored of a VLR: text fields cut at the first NUL *)
Definition vlr_norm (v : vlr) : vlr :=
  mkVlr (v_data v) (pad_to 32 (until_nul (v_desc v))) (pad_to 16 (until_nul (v_user v)))
        (v_reserved v) (v_id v) (v_size v).

Lemma vlr_norm_view v : vlr_view (vlr_norm v) = vlr_view v.
Proof.
  unfold vlr_view, vlr_norm, vlr_get_user, vlr_get_desc. cbn [v_user v_desc v_id v_reserved v_size v_data andb].
  rewrite !until_nul_pad.
  rewrite !(until_nul_id (until_nul _)) by apply until_nul_no_nul. reflexivity.
Qed.

Definition vlr_consistent (v : vlr) : Prop := vlr_wf v /\ v_size v = Z.of_nat (length (v_data v)).

Lemma vlr_at_image A v C : vlr_consistent v ->
  vlr_at (A ++ vlr_image v ++ C) (length A) = vlr_norm v /\
  vlr_end (A ++ vlr_image v ++ C) (length A) = (length A + length (vlr_image v))%nat.
Proof.
  intros [(Lu & Ld & Bu & Bd & Bdat & Rr & Ri & Rs) Es].
  set (cs := [le_enc 2 (v_reserved v); pad_to 16 (until_nul (v_user v)); le_enc 2 (v_id v);
              le_enc 2 (Z.of_nat (length (v_data v))); pad_to 32 (until_nul (v_desc v)); v_data v]).
  assert (EI : vlr_image v = List.concat cs) by (unfold vlr_image, cs; cbn [List.concat]; now rewrite app_nil_r).
  assert (L1 : length (pad_to 16 (until_nul (v_user v))) = 16%nat).
  { apply pad_to_length. pose proof (until_nul_length (v_user v)). unfold eUserIdSize in Lu. lia. }
  assert (L2 : length (pad_to 32 (until_nul (v_desc v))) = 32%nat).
  { apply pad_to_length. pose proof (until_nul_length (v_desc v)). unfold eDescriptionSize in Ld. lia. }
  assert (OF : forall k, (k <= 5)%nat -> offset_of (map (@length Z) cs) k = nth k [0;2;18;20;22;54]%nat 0%nat).
  { intros k Hk. unfold offset_of, cs. cbn [map]. rewrite !le_enc_length, L1, L2.
    destruct k as [|[|[|[|[|[|k]]]]]]; try reflexivity. lia. }
  assert (SL : forall k c, nth_error cs k = Some c -> (k <= 5)%nat ->
     slice (A ++ vlr_image v ++ C) (length A + nth k [0;2;18;20;22;54]%nat 0%nat) (length c) = c).
  { intros k c Hc Hk. rewrite slice_app_r by lia.
    replace (length A + nth k [0;2;18;20;22;54]%nat 0%nat - length A)%nat with (nth k [0;2;18;20;22;54]%nat 0%nat) by lia.
    rewrite <- OF by lia. rewrite EI. now apply chunk_slice. }
  assert (S0 := SL 0%nat _ eq_refl ltac:(lia)). assert (S1 := SL 1%nat _ eq_refl ltac:(lia)).
  assert (S2 := SL 2%nat _ eq_refl ltac:(lia)). assert (S3 := SL 3%nat _ eq_refl ltac:(lia)).
  assert (S4 := SL 4%nat _ eq_refl ltac:(lia)). assert (S5 := SL 5%nat _ eq_refl ltac:(lia)).
  cbn [nth] in *. rewrite !le_enc_length in *. rewrite L1 in S1. rewrite L2 in S4. rewrite Nat.add_0_r in S0.
  set (F := A ++ vlr_image v ++ C) in *.
  unfold in_unsigned in *.
  assert (U0 : u_at F (length A) 2 = v_reserved v).
  { unfold u_at. rewrite S0. apply le_dec_enc_small. rewrite pow256_pow2. exact Rr. }
  assert (U2 : u_at F (length A + 18) 2 = v_id v).
  { unfold u_at. rewrite S2. apply le_dec_enc_small. rewrite pow256_pow2. exact Ri. }
  assert (U3 : u_at F (length A + 20) 2 = v_size v).
  { unfold u_at. rewrite S3, <- Es. apply le_dec_enc_small. rewrite pow256_pow2. exact Rs. }
  assert (LN : vlr_len_at F (length A) = length (v_data v)) by (unfold vlr_len_at; rewrite U3; lia).
  split.
  - unfold vlr_at, vlr_norm. rewrite LN, U0, U2, U3, S5, S4, S1. reflexivity.
  - unfold vlr_end. rewrite LN. unfold vlr_image. rewrite !app_length, !le_enc_length, L1, L2. lia.
Qed.

Lemma vlrs_at_image l : forall A C, Forall vlr_consistent l ->
  vlrs_at (length l) (A ++ vlrs_image l ++ C) (length A) = map vlr_norm l /\
  vlrs_end (length l) (A ++ vlrs_image l ++ C) (length A) = (length A + length (vlrs_image l))%nat.
Proof.
  induction l as [|v l IH]; intros A C H.
  - cbn. now rewrite Nat.add_0_r.
  - inversion H as [|? ? Hv Hl]; subst. cbn [List.length vlrs_at vlrs_end map].
    unfold vlrs_image. cbn [map List.concat]. fold (vlrs_image l).
    rewrite <- (app_assoc (vlr_image v)).
    destruct (vlr_at_image A v (vlrs_image l ++ C) Hv) as [E1 E2]. rewrite E1, E2.
    destruct (IH (A ++ vlr_image v) C Hl) as [E3 E4].
    rewrite <- app_assoc, app_length in E3, E4. rewrite E3, E4. split; [reflexivity|].
    rewrite app_length. lia.
Qed.

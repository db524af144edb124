From Coq Require Import ZArith List Lia Bool.
From Coq Require Import ZifyBool ZifyNat.
Import ListNotations.
From Verif Require Import Outcome Bytes Float64 Endian_Model Endian_Proofs Classif_Model
  Schema_Model Header_Model Point_Model Point_Spec Point_Api.
Local Open Scope Z_scope.

(** ** bit ranges *)
Local Ltac tb := match goal with
  | |- Z.testbit ?a ?x = Z.testbit ?a ?y => replace x with y by lia; reflexivity end.
Lemma bits_at_testbit R s w k : 0 <= s -> 0 <= w -> 0 <= k ->
  Z.testbit (bits_at R s w) k = (k <? w) && Z.testbit R (s + k).
Proof.
  intros Hs Hw Hk. unfold bits_at.
  destruct (Z.ltb_spec k w).
  - cbn [andb]. rewrite Z.mod_pow2_bits_low by lia. rewrite Z.div_pow2_bits by lia. f_equal. ring.
  - rewrite Z.mod_pow2_bits_high by lia. reflexivity.
Qed.

Lemma put_bits_decomp R s w v : 0 <= s -> 0 <= w ->
  put_bits R s w v = R mod 2 ^ s + 2 ^ s * (v mod 2 ^ w + 2 ^ w * (R / 2 ^ (s + w))).
Proof.
  intros Hs Hw. unfold put_bits, bits_at.
  assert (P1 : 0 < 2 ^ s) by (apply Z.pow_pos_nonneg; lia).
  assert (P2 : 0 < 2 ^ w) by (apply Z.pow_pos_nonneg; lia).
  rewrite Z.pow_add_r by lia. rewrite <- Z.div_div by lia.
  pose proof (Z.div_mod R (2 ^ s)) as E1. pose proof (Z.div_mod (R / 2 ^ s) (2 ^ w)) as E2.
  specialize (E1 ltac:(lia)). specialize (E2 ltac:(lia)).
  rewrite E1 at 1. rewrite E2 at 1. ring.
Qed.

Lemma put_bits_testbit R s w v k : 0 <= s -> 0 <= w -> 0 <= k ->
  Z.testbit (put_bits R s w v) k =
  if (s <=? k) && (k <? s + w) then Z.testbit v (k - s) else Z.testbit R k.
Proof.
  intros Hs Hw Hk. rewrite put_bits_decomp by lia.
  assert (P1 : 0 < 2 ^ s) by (apply Z.pow_pos_nonneg; lia).
  assert (P2 : 0 < 2 ^ w) by (apply Z.pow_pos_nonneg; lia).
  set (X := v mod 2 ^ w + 2 ^ w * (R / 2 ^ (s + w))).
  destruct (Z.leb_spec s k) as [H1|H1]; cbn [andb].
  - assert (E : (R mod 2 ^ s + 2 ^ s * X) / 2 ^ s = X).
    { rewrite Z.mul_comm, Z.div_add by lia. rewrite Z.div_small; [lia|]. apply Z.mod_pos_bound; lia. }
    replace k with (k - s + s) at 1 by lia. rewrite <- Z.div_pow2_bits by lia. rewrite E.
    destruct (Z.ltb_spec k (s + w)) as [H2|H2].
    + unfold X. rewrite <- (Z.mod_pow2_bits_low _ w) by lia.
      rewrite (Z.mul_comm (2 ^ w)), Z.mod_add by lia. rewrite Z.mod_mod by lia.
      apply Z.mod_pow2_bits_low. lia.
    + assert (E2 : X / 2 ^ w = R / 2 ^ (s + w)).
      { unfold X. rewrite (Z.mul_comm (2 ^ w)), Z.div_add by lia.
        rewrite Z.div_small; [lia|]. apply Z.mod_pos_bound; lia. }
      replace (k - s) with (k - s - w + w) by lia. rewrite <- Z.div_pow2_bits by lia. rewrite E2.
      rewrite Z.div_pow2_bits by lia. f_equal. lia.
  - rewrite <- (Z.mod_pow2_bits_low _ s) by lia.
    rewrite (Z.mul_comm (2 ^ s)), Z.mod_add by lia. rewrite Z.mod_mod by lia.
    apply Z.mod_pow2_bits_low. lia.
Qed.

Lemma bits_at_put_same R s w v : 0 <= s -> 0 <= w -> bits_at (put_bits R s w v) s w = v mod 2 ^ w.
Proof.
  intros Hs Hw. apply Z.bits_inj'. intros k Hk.
  rewrite bits_at_testbit by lia.
  destruct (Z.ltb_spec k w); cbn [andb].
  - rewrite put_bits_testbit by lia.
    replace (s <=? s + k) with true by lia. replace (s + k <? s + w) with true by lia. cbn [andb].
    rewrite Z.mod_pow2_bits_low by lia. f_equal. lia.
  - rewrite Z.mod_pow2_bits_high by lia. reflexivity.
Qed.

Lemma bits_at_put_other R s w v s' w' : 0 <= s -> 0 <= w -> 0 <= s' -> 0 <= w' ->
  s + w <= s' \/ s' + w' <= s -> bits_at (put_bits R s w v) s' w' = bits_at R s' w'.
Proof.
  intros Hs Hw Hs' Hw' Hd. apply Z.bits_inj'. intros k Hk.
  rewrite !bits_at_testbit by lia.
  destruct (Z.ltb_spec k w'); cbn [andb]; [|reflexivity].
  rewrite put_bits_testbit by lia.
  destruct (Z.leb_spec s (s' + k)), (Z.ltb_spec (s' + k) (s + w)); cbn [andb]; auto; lia.
Qed.

(** A field inside another field. *)
Lemma bits_at_bits_at R s w s' w' : 0 <= s -> 0 <= w -> 0 <= s' -> 0 <= w' -> s' + w' <= w ->
  bits_at (bits_at R s w) s' w' = bits_at R (s + s') w'.
Proof.
  intros. apply Z.bits_inj'. intros k Hk.
  rewrite !bits_at_testbit by lia.
  destruct (Z.ltb_spec k w'); cbn [andb]; [|reflexivity].
  replace (s' + k <? w) with true by lia. cbn [andb]. f_equal. lia.
Qed.

Lemma put_bits_put_bits R s w s' w' v : 0 <= s -> 0 <= w -> 0 <= s' -> 0 <= w' -> s' + w' <= w ->
  put_bits R s w (put_bits (bits_at R s w) s' w' v) = put_bits R (s + s') w' v.
Proof.
  intros. apply Z.bits_inj'. intros k Hk.
  rewrite (put_bits_testbit _ (s + s')) by lia. rewrite (put_bits_testbit _ s w) by lia.
  destruct (Z.leb_spec s k), (Z.ltb_spec k (s + w)); cbn [andb].
  - rewrite put_bits_testbit by lia.
    destruct (Z.leb_spec s' (k - s)), (Z.ltb_spec (k - s) (s' + w')),
      (Z.leb_spec (s + s') k), (Z.ltb_spec k (s + s' + w')); cbn [andb]; try lia;
      try tb; rewrite bits_at_testbit by lia;
      replace (k - s <? w) with true by lia; cbn [andb]; tb.
  - destruct (Z.leb_spec (s + s') k), (Z.ltb_spec k (s + s' + w')); cbn [andb]; auto; lia.
  - destruct (Z.leb_spec (s + s') k), (Z.ltb_spec k (s + s' + w')); cbn [andb]; auto; lia.
  - lia.
Qed.

Lemma put_bits_mod R s w v : 0 <= w -> put_bits R s w (v mod 2 ^ w) = put_bits R s w v.
Proof. intros. unfold put_bits. rewrite Z.mod_mod; [reflexivity|]. assert (0 < 2 ^ w) by (apply Z.pow_pos_nonneg; lia). lia. Qed.

(** ** byte strings as integers *)
Lemma le_dec_slice l i n : bytes_ok l -> (i + n <= length l)%nat ->
  le_dec (firstn n (skipn i l)) = bits_at (le_dec l) (8 * Z.of_nat i) (8 * Z.of_nat n).
Proof.
  intros Hl H. unfold bits_at. rewrite <- !pow256_pow2.
  assert (E : l = firstn i l ++ firstn n (skipn i l) ++ skipn n (skipn i l)).
  { now rewrite firstn_skipn, firstn_skipn. }
  rewrite E at 2. rewrite !le_dec_app.
  rewrite !firstn_length, skipn_length. rewrite !Nat.min_l by lia.
  pose proof (le_dec_bound _ (bytes_slice l 0 i Hl)) as B1. cbn [skipn] in B1.
  rewrite firstn_length, Nat.min_l in B1 by lia.
  pose proof (le_dec_bound _ (bytes_slice l i n Hl)) as B2.
  rewrite firstn_length, skipn_length, Nat.min_l in B2 by lia.
  rewrite (Z.mul_comm (pow256 i)), Z.div_add by lia. rewrite (Z.div_small (le_dec (firstn i l))) by lia.
  rewrite Z.add_0_l, (Z.mul_comm (pow256 n)), Z.mod_add by lia. rewrite Z.mod_small; lia.
Qed.

Lemma le_dec_splice l i n v : bytes_ok l -> (i + n <= length l)%nat ->
  le_dec (firstn i l ++ le_enc n v ++ skipn (i + n) l)
  = put_bits (le_dec l) (8 * Z.of_nat i) (8 * Z.of_nat n) v.
Proof.
  intros Hl H. unfold put_bits. rewrite <- le_dec_slice by assumption.
  rewrite <- !pow256_pow2.
  assert (E : l = firstn i l ++ firstn n (skipn i l) ++ skipn (i + n) l).
  { rewrite Nat.add_comm, <- skipn_skipn, firstn_skipn, firstn_skipn. reflexivity. }
  rewrite E at 3. rewrite !le_dec_app, le_enc_length, le_dec_enc.
  rewrite !firstn_length, skipn_length. rewrite !Nat.min_l by lia. ring.
Qed.

(** ** characterisation of the raw accessors *)
Lemma bits_to_int_spec sign n d pos : bytes_ok d -> (1 <= n)%nat -> 0 <= pos ->
  pos + Z.of_nat n <= Z.of_nat (length d) ->
  bits_to_int sign n d pos = Ok (decode_bits sign (8 * Z.of_nat n) (bits_at (le_dec d) (8 * pos) (8 * Z.of_nat n))).
Proof.
  intros Hd Hn Hp Hb. unfold bits_to_int. rewrite load_le_ok by assumption.
  rewrite le_dec_slice by (auto; lia). rewrite Z2Nat.id by lia. reflexivity.
Qed.

Lemma int_to_bits_spec n d pos v : bytes_ok d -> (1 <= n)%nat -> 0 <= pos ->
  pos + Z.of_nat n <= Z.of_nat (length d) ->
  exists d', int_to_bits n d pos v = Ok d' /\ bytes_ok d' /\ length d' = length d /\
    le_dec d' = put_bits (le_dec d) (8 * pos) (8 * Z.of_nat n) v.
Proof.
  intros Hd Hn Hp Hb. unfold int_to_bits. rewrite store_le_ok by assumption.
  eexists. split; [reflexivity|]. split; [|split].
  - apply splice_bytes; [exact Hd|apply le_enc_bytes].
  - rewrite !app_length, firstn_length, skipn_length, le_enc_length. lia.
  - rewrite le_dec_splice by (auto; lia). rewrite Z2Nat.id by lia. reflexivity.
Qed.

Lemma get_byte_spec p pos : bytes_ok (p_data p) -> 0 <= pos < Z.of_nat (length (p_data p)) ->
  get_byte p pos = Ok (bits_at (rec_int p) (8 * pos) 8).
Proof.
  intros Hd Hp. unfold get_byte, rec_int.
  destruct (deref_ok (p_data p) pos Hp) as (b & Hn & ->). f_equal.
  assert (E : le_dec (firstn 1 (skipn (Z.to_nat pos) (p_data p))) = b).
  { rewrite (slice_cons _ _ 0 _ Hn). cbn. lia. }
  rewrite le_dec_slice in E by (auto; lia). rewrite Z2Nat.id in E by lia. symmetry. exact E.
Qed.

Lemma set_byte_spec p pos v : bytes_ok (p_data p) -> 0 <= pos < Z.of_nat (length (p_data p)) ->
  exists p', set_byte p pos v = Ok p' /\ p_hdr p' = p_hdr p /\ bytes_ok (p_data p') /\
    length (p_data p') = length (p_data p) /\ rec_int p' = put_bits (rec_int p) (8 * pos) 8 v.
Proof.
  intros Hd Hp. unfold set_byte. rewrite assign_ok by lia. cbn [obind].
  eexists. split; [reflexivity|]. unfold p_upd, rec_int. cbn [p_hdr p_data].
  assert (E : [v mod 256] = le_enc 1 v) by reflexivity.
  rewrite E, <- (Nat.add_1_r (Z.to_nat pos)).
  split; [reflexivity|]. split; [|split].
  - apply splice_bytes; [exact Hd|apply le_enc_bytes].
  - rewrite !app_length, firstn_length, skipn_length, le_enc_length. lia.
  - rewrite le_dec_splice by (auto; lia). rewrite Z2Nat.id by lia. reflexivity.
Qed.

(** Bit-field setters: [put_field] against [put_bits] (a sweep over the finite
    domain of flag bytes and of arguments modulo 256). *)
Definition zseq (n : nat) : list Z := map Z.of_nat (seq 0 n).
Lemma zseq_in n z : 0 <= z < Z.of_nat n -> In z (zseq n).
Proof. intros H. unfold zseq. apply in_map_iff. exists (Z.to_nat z). split; [lia|]. apply in_seq. lia. Qed.

Definition field_cases : list (Z * Z * Z) := [(7, 0, 3); (7, 3, 3); (1, 6, 1); (1, 7, 1)].

Lemma put_field_sweep :
  forallb (fun c => let '(m, s, w) := c in
    forallb (fun f => forallb (fun v => put_field f m s v =? put_bits f s w v) (zseq 256)) (zseq 256))
    field_cases = true.
Proof. vm_compute. reflexivity. Qed.

Lemma put_field_spec m s w f v : In (m, s, w) field_cases -> 0 <= f < 256 ->
  put_field f m s v = put_bits f s w v.
Proof.
  intros Hc Hf. pose proof put_field_sweep as H. rewrite forallb_forall in H.
  specialize (H _ Hc). cbv beta iota in H. rewrite forallb_forall in H.
  specialize (H f (zseq_in 256 f Hf)). rewrite forallb_forall in H.
  assert (Hv : 0 <= v mod 256 < 256) by (apply Z.mod_pos_bound; lia).
  specialize (H (v mod 256) (zseq_in 256 _ Hv)). apply Z.eqb_eq in H.
  assert (E1 : put_field f m s (v mod 256) = put_field f m s v).
  { unfold put_field. rewrite Z.mod_mod by lia. reflexivity. }
  rewrite <- E1, H.
  assert (Hw : 0 <= w <= 8) by (cbn in Hc; intuition (match goal with E : _ = _ |- _ => inversion E end; lia)).
  unfold put_bits. replace ((v mod 256) mod 2 ^ w) with (v mod 2 ^ w); [reflexivity|].
  change 256 with (2 ^ 8). rewrite <- Znumtheory.Zmod_div_mod; [reflexivity|apply Z.pow_pos_nonneg; lia|lia|].
  exists (2 ^ (8 - w)). rewrite <- Z.pow_add_r by lia. f_equal. lia.
Qed.

Lemma land_mask f k : 0 <= k -> Z.land f (2 ^ k - 1) = f mod 2 ^ k.
Proof. intros. rewrite <- Z.land_ones by lia. f_equal. unfold Z.ones. rewrite Z.shiftl_mul_pow2 by lia. lia. Qed.

Lemma bits_at_range R s w : 0 <= w -> 0 <= bits_at R s w < 2 ^ w.
Proof. intros. apply Z.mod_pos_bound. apply Z.pow_pos_nonneg; lia. Qed.

Lemma format_bytes_ge fmt : 20 <= format_bytes fmt.
Proof. unfold format_bytes. repeat destruct (_ =? _); lia. Qed.

Lemma format_cases fmt : 0 <= fmt <= 3 -> fmt = 0 \/ fmt = 1 \/ fmt = 2 \/ fmt = 3.
Proof. lia. Qed.

Lemma to_signed8 b : to_signed 8 b = decode_bits true 8 b. Proof. reflexivity. Qed.

Lemma api_get_spec p a s w sg : point_wf p -> attr_range (p_format p) a = Some (s, w, sg) ->
  api_get a p = Ok (decode_bits sg w (bits_at (rec_int p) s w)).
Proof.
  intros (Hf & Hd & Hl) Hr. pose proof (format_bytes_ge (p_format p)) as H20.
  assert (Hfl : get_byte p 14 = Ok (bits_at (rec_int p) 112 8)) by (apply (get_byte_spec p 14); auto; lia).
  destruct a; cbn [attr_range] in Hr;
    try (injection Hr as <- <- <-);
    cbn [api_get decode_bits].
  - unfold get_raw_x. rewrite bits_to_int_spec by (auto; lia). reflexivity.
  - unfold get_raw_y. rewrite bits_to_int_spec by (auto; lia). reflexivity.
  - unfold get_raw_z. rewrite bits_to_int_spec by (auto; lia). reflexivity.
  - unfold get_intensity. rewrite bits_to_int_spec by (auto; lia). reflexivity.
  - unfold get_flags. exact Hfl.
  - unfold get_return_number. rewrite Hfl. cbn [obind]. f_equal.
    change 7 with (2 ^ 3 - 1). rewrite land_mask by lia.
    change 112 with (112 + 0) at 2; rewrite <- (bits_at_bits_at (rec_int p) 112 8 0 3) by lia.
    unfold bits_at at 2. rewrite Z.div_1_r. reflexivity.
  - unfold get_number_of_returns. rewrite Hfl. cbn [obind]. f_equal.
    change 7 with (2 ^ 3 - 1). rewrite land_mask, Z.shiftr_div_pow2 by lia.
    change 115 with (112 + 3); rewrite <- (bits_at_bits_at (rec_int p) 112 8 3 3) by lia. reflexivity.
  - unfold get_scan_direction. rewrite Hfl. cbn [obind]. f_equal.
    change 1 with (2 ^ 1 - 1) at 1. rewrite land_mask, Z.shiftr_div_pow2 by lia.
    change 118 with (112 + 6); rewrite <- (bits_at_bits_at (rec_int p) 112 8 6 1) by lia. reflexivity.
  - unfold get_flight_line_edge. rewrite Hfl. cbn [obind]. f_equal.
    change 1 with (2 ^ 1 - 1) at 1. rewrite land_mask, Z.shiftr_div_pow2 by lia.
    change 119 with (112 + 7); rewrite <- (bits_at_bits_at (rec_int p) 112 8 7 1) by lia. reflexivity.
  - unfold get_classification. rewrite (get_byte_spec p 15) by (auto; lia). cbn [obind]. f_equal.
    unfold class_of_byte. apply Z.mod_small. apply (bits_at_range _ _ 8). lia.
  - unfold get_scan_angle. rewrite (get_byte_spec p 16) by (auto; lia). reflexivity.
  - unfold get_user_data. rewrite (get_byte_spec p 17) by (auto; lia). reflexivity.
  - unfold get_point_source_id. rewrite bits_to_int_spec by (auto; lia). reflexivity.
  - unfold get_time.
    destruct (format_cases _ Hf) as [E|[E|[E|E]]]; rewrite E in *; cbn in Hr; try discriminate;
      injection Hr as <- <- <-; cbn [Z.eqb Pos.eqb orb];
      unfold endian_load_double; change (load_dispatch LittleE LittleE false 8) with (bits_to_int false 8);
      change (format_bytes 1) with 28 in *; change (format_bytes 3) with 34 in *;
      (rewrite bits_to_int_spec by (auto; lia)); unfold omap; cbn [obind decode_bits]; f_equal;
      apply f64_bits_of_bits; apply (bits_at_range _ _ 64); lia.
  - unfold get_color.
    destruct (format_cases _ Hf) as [E|[E|[E|E]]]; rewrite E in *; cbn in Hr; try discriminate;
      injection Hr as <- <- <-; cbn [Z.eqb Pos.eqb orb];
      change (format_bytes 2) with 26 in *; change (format_bytes 3) with 34 in *;
      (rewrite !bits_to_int_spec by (auto; lia)); reflexivity.
  - unfold get_color.
    destruct (format_cases _ Hf) as [E|[E|[E|E]]]; rewrite E in *; cbn in Hr; try discriminate;
      injection Hr as <- <- <-; cbn [Z.eqb Pos.eqb orb];
      change (format_bytes 2) with 26 in *; change (format_bytes 3) with 34 in *;
      (rewrite !bits_to_int_spec by (auto; lia)); reflexivity.
  - unfold get_color.
    destruct (format_cases _ Hf) as [E|[E|[E|E]]]; rewrite E in *; cbn in Hr; try discriminate;
      injection Hr as <- <- <-; cbn [Z.eqb Pos.eqb orb];
      change (format_bytes 2) with 26 in *; change (format_bytes 3) with 34 in *;
      (rewrite !bits_to_int_spec by (auto; lia)); reflexivity.
Qed.

(** The effect of a successful write on the record. *)
Definition wrote (p p' : point) (R' : Z) : Prop :=
  p_hdr p' = p_hdr p /\ bytes_ok (p_data p') /\ length (p_data p') = length (p_data p) /\ rec_int p' = R'.

Lemma wrote_wf p p' R : point_wf p -> wrote p p' R -> point_wf p'.
Proof.
  intros (H1 & H2 & H3) (W1 & W2 & W3 & W4). unfold point_wf, p_format in *. rewrite W1, W3. auto.
Qed.

Lemma set_int_spec p n pos v : bytes_ok (p_data p) -> (1 <= n)%nat -> 0 <= pos ->
  pos + Z.of_nat n <= Z.of_nat (length (p_data p)) ->
  exists p', set_int p n pos v = Ok p' /\ wrote p p' (put_bits (rec_int p) (8 * pos) (8 * Z.of_nat n) v).
Proof.
  intros Hd Hn Hp Hb. unfold set_int.
  destruct (int_to_bits_spec n (p_data p) pos v Hd Hn Hp Hb) as (d' & -> & H1 & H2 & H3).
  cbn [obind]. eexists; split; [reflexivity|]. unfold wrote, rec_int, p_upd. cbn. auto.
Qed.

Lemma set_field_spec p m s w v : In (m, s, w) field_cases -> bytes_ok (p_data p) ->
  14 < Z.of_nat (length (p_data p)) ->
  exists p', (let! f := get_byte p 14 in set_byte p 14 (put_field f m s v)) = Ok p' /\
    wrote p p' (put_bits (rec_int p) (112 + s) w v).
Proof.
  intros Hc Hd Hl. rewrite (get_byte_spec p 14) by (auto; lia). cbn [obind].
  pose proof (bits_at_range (rec_int p) 112 8 ltac:(lia)) as Hr.
  rewrite (put_field_spec m s w) by (auto; lia).
  destruct (set_byte_spec p 14 (put_bits (bits_at (rec_int p) 112 8) s w v) Hd ltac:(lia)) as (p' & E & W1 & W2 & W3 & W4).
  exists p'. split; [exact E|]. unfold wrote. split; [exact W1|]. split; [exact W2|]. split; [exact W3|].
  rewrite W4. change (8 * 14) with 112.
  assert (Hw : 0 <= s /\ 0 <= w /\ s + w <= 8) by (cbn in Hc; intuition (match goal with E : _ = _ |- _ => inversion E end; lia)).
  apply put_bits_put_bits; lia.
Qed.

Lemma api_set_spec p a v s w sg : point_wf p -> is_color a = false ->
  attr_range (p_format p) a = Some (s, w, sg) -> (a = ATime -> 0 <= v < 2 ^ 64) ->
  exists p', api_set a v p = Ok p' /\ wrote p p' (put_bits (rec_int p) s w v).
Proof.
  intros (Hf & Hd & Hl) Hc Hr Ht. pose proof (format_bytes_ge (p_format p)) as H20.
  destruct a; cbn [attr_range is_color] in Hr, Hc; try discriminate Hc;
    try (injection Hr as <- <- <-); cbn [api_set].
  - apply (set_int_spec p 4 0); auto; lia.
  - apply (set_int_spec p 4 4); auto; lia.
  - apply (set_int_spec p 4 8); auto; lia.
  - apply (set_int_spec p 2 12); auto; lia.
  - apply (set_byte_spec p 14); auto; lia.
  - apply (set_field_spec p 7 0 3 v); auto; [cbn; auto|lia].
  - apply (set_field_spec p 7 3 3 v); auto; [cbn; auto|lia].
  - apply (set_field_spec p 1 6 1 v); auto; [cbn; auto|lia].
  - apply (set_field_spec p 1 7 1 v); auto; [cbn; auto|lia].
  - apply (set_byte_spec p 15); auto; lia.
  - apply (set_byte_spec p 16); auto; lia.
  - apply (set_byte_spec p 17); auto; lia.
  - apply (set_int_spec p 2 18); auto; lia.
  - unfold set_time.
    destruct (format_cases _ Hf) as [E|[E|[E|E]]]; rewrite E in *; cbn in Hr; try discriminate;
      injection Hr as <- <- <-; cbn [Z.eqb Pos.eqb orb];
      unfold endian_store_double; change (store_dispatch LittleE LittleE 8) with (int_to_bits 8);
      change (format_bytes 1) with 28 in *; change (format_bytes 3) with 34 in *;
      rewrite f64_bits_of_bits by (apply Ht; reflexivity);
      apply (set_int_spec p 8 20); auto; lia.
Qed.

(** Colour: the three channels are written, nothing else. *)
Lemma set_color_spec p c rs gs bs : point_wf p ->
  attr_range (p_format p) ARed = Some (rs, 16, false) ->
  attr_range (p_format p) AGreen = Some (gs, 16, false) ->
  attr_range (p_format p) ABlue = Some (bs, 16, false) ->
  exists p', set_color p c = Ok p' /\
    wrote p p' (put_bits (put_bits (put_bits (rec_int p) rs 16 (c_red c)) gs 16 (c_green c)) bs 16 (c_blue c)).
Proof.
  intros (Hf & Hd & Hl) Hr Hg Hb. pose proof (format_bytes_ge (p_format p)) as H20.
  assert (Main : forall q, 0 <= q -> q + 6 <= Z.of_nat (length (p_data p)) ->
    exists p', (let! p1 := set_int p 2 q (c_red c) in
                let! p2 := set_int p1 2 (q + 2) (c_green c) in
                set_int p2 2 (q + 4) (c_blue c)) = Ok p' /\
    wrote p p' (put_bits (put_bits (put_bits (rec_int p) (8 * q) 16 (c_red c)) (8 * (q + 2)) 16 (c_green c)) (8 * (q + 4)) 16 (c_blue c))).
  { intros q Hq Hq2.
    destruct (set_int_spec p 2 q (c_red c) Hd ltac:(lia) ltac:(lia) ltac:(lia)) as (p1 & -> & A1 & A2 & A3 & A4).
    cbn [obind].
    destruct (set_int_spec p1 2 (q + 2) (c_green c) A2 ltac:(lia) ltac:(lia) ltac:(lia)) as (p2 & -> & B1 & B2 & B3 & B4).
    cbn [obind].
    destruct (set_int_spec p2 2 (q + 4) (c_blue c) B2 ltac:(lia) ltac:(lia) ltac:(lia)) as (p3 & -> & C1 & C2 & C3 & C4).
    exists p3. split; [reflexivity|]. unfold wrote.
    split; [congruence|]. split; [exact C2|]. split; [congruence|]. rewrite C4, B4, A4. reflexivity. }
  unfold set_color.
  replace (Z.of_nat (length (p_data p)) =? 0) with false by lia.
  destruct (format_cases _ Hf) as [E|[E|[E|E]]]; rewrite E in *; cbn in Hr, Hg, Hb; try discriminate;
    injection Hr as <-; injection Hg as <-; injection Hb as <-; cbn [Z.eqb Pos.eqb orb];
    change (format_bytes 2) with 26 in *; change (format_bytes 3) with 34 in *;
    eapply Main; lia.
Qed.

(** What absent attributes do. *)
Lemma time_absent p : point_wf p -> attr_range (p_format p) ATime = None ->
  (forall t, set_time p t = Throw EInvalidFormat) /\ get_time p = Ok f64_zero.
Proof.
  intros (Hf & Hd & Hl) Hr. unfold set_time, get_time.
  destruct (format_cases _ Hf) as [E|[E|[E|E]]]; rewrite E in *; cbn in Hr; try discriminate;
    cbn [Z.eqb Pos.eqb orb]; auto.
Qed.
Lemma color_absent p : point_wf p -> attr_range (p_format p) ARed = None ->
  (forall c, set_color p c = Throw EInvalidFormat) /\ get_color p = Ok color_black.
Proof.
  intros (Hf & Hd & Hl) Hr. unfold set_color, get_color.
  destruct (format_cases _ Hf) as [E|[E|[E|E]]]; rewrite E in *; cbn in Hr; try discriminate;
    cbn [Z.eqb Pos.eqb orb]; auto.
Qed.

(** ** Field separation *)
Lemma attr_ranges_disjoint fmt a b r1 r2 : 0 <= fmt <= 3 -> overlapping a b = false ->
  attr_range fmt a = Some r1 -> attr_range fmt b = Some r2 -> ranges_disjoint r1 r2.
Proof.
  intros Hf Ho H1 H2.
  destruct (format_cases _ Hf) as [E|[E|[E|E]]]; rewrite E in *;
  destruct a, b; cbn in Ho, H1, H2; try discriminate;
    injection H1 as <-; injection H2 as <-; cbn; lia.
Qed.

Lemma attr_range_bounds fmt a s w sg : 0 <= fmt <= 3 -> attr_range fmt a = Some (s, w, sg) ->
  0 <= s /\ 0 < w /\ s + w <= 8 * format_bytes fmt.
Proof.
  intros Hf H.
  destruct (format_cases _ Hf) as [E|[E|[E|E]]]; rewrite E in *;
  destruct a; cbn in H; try discriminate; injection H as <- <- <-; cbn; lia.
Qed.

Lemma decode_fits sg w v : 0 < w -> value_fits sg w v -> decode_bits sg w (v mod 2 ^ w) = v.
Proof.
  intros Hw H. destruct sg; cbn [decode_bits value_fits] in *.
  - apply to_signed_id; auto.
  - apply Z.mod_small. exact H.
Qed.

Lemma nth_error_bits d i : bytes_ok d -> (i < length d)%nat ->
  nth_error d i = Some (bits_at (le_dec d) (8 * Z.of_nat i) 8).
Proof.
  intros Hdd Hil. destruct (nth_error d i) as [x|] eqn:En; [|apply nth_error_None in En; lia].
  f_equal. pose proof (le_dec_slice d i 1 Hdd ltac:(lia)) as L.
  rewrite (slice_cons _ _ 0 _ En) in L. cbn [firstn le_dec] in L.
  replace (x + 256 * 0) with x in L by lia. exact L.
Qed.

(** C01: set, get, frame. *)
Lemma set_get_frame p a v s w sg : point_wf p -> is_color a = false ->
  attr_range (p_format p) a = Some (s, w, sg) -> value_fits sg w v ->
  exists p', api_set a v p = Ok p' /\ point_wf p' /\ p_hdr p' = p_hdr p /\
    length (p_data p') = length (p_data p) /\
    api_get a p' = Ok v /\
    (forall b, overlapping a b = false -> attr_range (p_format p) b <> None -> api_get b p' = api_get b p) /\
    (forall i, (Z.to_nat (format_bytes (p_format p)) <= i)%nat ->
       nth_error (p_data p') i = nth_error (p_data p) i).
Proof.
  intros Hw Hc Hr Hv. pose proof Hw as (Hf & Hd & Hl).
  destruct (attr_range_bounds _ _ _ _ _ Hf Hr) as (B1 & B2 & B3).
  destruct (api_set_spec p a v s w sg Hw Hc Hr) as (p' & E & W).
  { intros ->. destruct (format_cases _ Hf) as [F|[F|[F|F]]]; rewrite F in Hr; cbn in Hr; try discriminate;
      injection Hr as <- <- <-; exact Hv. }
  pose proof (wrote_wf _ _ _ Hw W) as Hw'. pose proof W as (W1 & W2 & W3 & W4).
  assert (Ff : p_format p' = p_format p) by (unfold p_format; now rewrite W1).
  exists p'. split; [exact E|]. split; [exact Hw'|]. split; [exact W1|]. split; [exact W3|].
  split; [|split].
  - rewrite (api_get_spec p' a s w sg Hw') by (rewrite Ff; exact Hr).
    rewrite W4, bits_at_put_same by lia. f_equal. apply decode_fits; auto.
  - intros b Hb Hrb. destruct (attr_range (p_format p) b) as [[[s2 w2] sg2]|] eqn:Hr2; [|congruence].
    rewrite (api_get_spec p' b s2 w2 sg2 Hw') by (rewrite Ff; exact Hr2).
    rewrite (api_get_spec p b s2 w2 sg2 Hw Hr2).
    destruct (attr_range_bounds _ _ _ _ _ Hf Hr2) as (D1 & D2 & D3).
    pose proof (attr_ranges_disjoint _ _ _ _ _ Hf Hb Hr Hr2) as Hdis. cbn in Hdis.
    rewrite W4, bits_at_put_other by lia. reflexivity.
  - intros i Hi.
    destruct (Nat.ltb_spec i (length (p_data p))) as [Hlt|Hge].
    2:{ rewrite (proj2 (nth_error_None (p_data p') i)) by lia.
        rewrite (proj2 (nth_error_None (p_data p) i)) by lia. reflexivity. }
    rewrite !nth_error_bits by (auto; lia). f_equal. fold (rec_int p) (rec_int p'). rewrite W4.
    apply bits_at_put_other; try lia.
Qed.

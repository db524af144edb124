From Coq Require Import ZArith List Lia Bool.
From Coq Require Import ZifyBool ZifyNat.
Import ListNotations.
From Verif Require Import Outcome Bytes Endian_Model.
Local Open Scope Z_scope.

Lemma lor_shiftl8 v r : 0 <= v < 256 -> Z.lor v (Z.shiftl r 8) = v + 256 * r.
Proof.
  intros Hv.
  assert (Hl : Z.land v (Z.shiftl r 8) = 0).
  { apply Z.bits_inj'. intros k Hk. rewrite Z.land_spec, Z.bits_0, Z.shiftl_spec by lia.
    destruct (Z.ltb_spec k 8) as [H|H].
    - rewrite (Z.testbit_neg_r r) by lia. apply andb_false_r.
    - replace (Z.testbit v k) with false; [reflexivity|]. symmetry.
      destruct (Z.eq_dec v 0) as [->|Hn]; [apply Z.bits_0|].
      apply Z.bits_above_log2; [lia|].
      assert (Z.log2 v < 8) by (apply Z.log2_lt_pow2; lia). lia. }
  rewrite <- Z.lxor_lor by exact Hl. rewrite <- Z.add_nocarry_lxor by exact Hl.
  rewrite Z.shiftl_mul_pow2 by lia. change (2 ^ 8) with 256. lia.
Qed.

Definition sgn (sign : bool) (w z : Z) : Z := if sign then to_signed w z else z.

Lemma to_signed_step w v x : 0 <= v < 256 -> 0 < w -> 0 <= x < 2 ^ w ->
  to_signed (w + 8) (v + 256 * x) = v + 256 * to_signed w x.
Proof.
  intros Hv Hw Hx. unfold to_signed.
  replace (w + 8) with (8 + w) by lia.
  assert (E1 : 2 ^ (8 + w) = 256 * 2 ^ w) by (rewrite Z.pow_add_r by lia; reflexivity).
  assert (E2 : 2 ^ (8 + w - 1) = 256 * 2 ^ (w - 1)).
  { replace (8 + w - 1) with (8 + (w - 1)) by lia. rewrite Z.pow_add_r by lia; reflexivity. }
  rewrite E1, E2. rewrite (Z.mod_small x) by lia. rewrite (Z.mod_small (v + 256 * x)) by lia.
  destruct (Z.ltb_spec x (2 ^ (w - 1))), (Z.ltb_spec (v + 256 * x) (256 * 2 ^ (w - 1))); lia.
Qed.

Lemma sgn_range sign w k x : 0 < k <= w -> 0 <= x < 2 ^ k ->
  conv_int sign w (sgn sign k x) = sgn sign k x.
Proof.
  intros Hk Hx. assert (Hpow : 2 ^ k <= 2 ^ w) by (apply Z.pow_le_mono_r; lia).
  destruct sign; cbn [conv_int sgn].
  - apply to_signed_id'; [lia|].
    pose proof (to_signed_range k x ltac:(lia)) as R. unfold in_signed in *.
    assert (2 ^ (k - 1) <= 2 ^ (w - 1)) by (apply Z.pow_le_mono_r; lia). lia.
  - rewrite Z.mod_small; lia.
Qed.

Lemma deref_ok l i : 0 <= i < Z.of_nat (length l) ->
  exists b, nth_error l (Z.to_nat i) = Some b /\ deref l i = Ok b.
Proof.
  intros H. unfold deref. destruct (Z.leb_spec 0 i), (Z.ltb_spec i (Z.of_nat (length l))); try lia.
  cbn [andb]. destruct (nth_error l (Z.to_nat i)) as [b|] eqn:E; eauto.
  apply nth_error_None in E. lia.
Qed.

Lemma slice_cons {A} (l : list A) i n b : nth_error l i = Some b ->
  firstn (S n) (skipn i l) = b :: firstn n (skipn (S i) l).
Proof.
  revert i. induction l as [|x l IH]; intros [|i] H; cbn in H; try discriminate.
  - inversion H; reflexivity.
  - cbn [skipn]. apply IH in H. exact H.
Qed.

Lemma bytes_nth l i b : bytes_ok l -> nth_error l i = Some b -> 0 <= b < 256.
Proof. intros H E. apply nth_error_In in E. unfold bytes_ok in H. rewrite Forall_forall in H. exact (H b E). Qed.

Lemma bytes_slice l i n : bytes_ok l -> bytes_ok (firstn n (skipn i l)).
Proof.
  intros Hl. unfold bytes_ok in *.
  rewrite <- (firstn_skipn i l) in Hl. apply Forall_app in Hl. destruct Hl as [_ Hl].
  rewrite <- (firstn_skipn n (skipn i l)) in Hl. apply Forall_app in Hl. tauto.
Qed.

Lemma load_forward_ok sign w n l i : bytes_ok l ->
  0 <= i -> i + Z.of_nat (S n) <= Z.of_nat (length l) -> 8 * Z.of_nat (S n) <= w ->
  load_forward sign w n l i =
  Ok (sgn sign (8 * Z.of_nat (S n)) (le_dec (firstn (S n) (skipn (Z.to_nat i) l)))).
Proof.
  intros Hl. revert i. induction n as [|n IH]; intros i Hi Hb Hw.
  - destruct (deref_ok l i ltac:(lia)) as (b & Hn & Hd).
    cbn [load_forward]. rewrite Hd. cbn [obind].
    rewrite (slice_cons _ _ _ _ Hn). cbn [firstn le_dec].
    replace (b + 256 * 0) with b by lia.
    pose proof (bytes_nth _ _ _ Hl Hn).
    change (8 * Z.of_nat 1) with 8. f_equal.
    rewrite <- (sgn_range sign w 8 b) by lia. destruct sign; reflexivity.
  - destruct (deref_ok l i ltac:(lia)) as (b & Hn & Hd).
    cbn [load_forward]. fold load_forward. rewrite Hd. cbn [obind].
    rewrite IH by lia. cbn [obind]. f_equal.
    pose proof (bytes_nth _ _ _ Hl Hn) as Hbb.
    rewrite lor_shiftl8 by lia.
    rewrite (slice_cons _ _ (S n) _ Hn). cbn [le_dec].
    replace (Z.to_nat (i + 1)) with (S (Z.to_nat i)) by lia.
    set (x := le_dec (firstn (S n) (skipn (S (Z.to_nat i)) l))).
    assert (Hx : 0 <= x < 2 ^ (8 * Z.of_nat (S n))).
    { pose proof (le_dec_bound _ (bytes_slice l (S (Z.to_nat i)) (S n) Hl)) as Bd.
      rewrite firstn_length, skipn_length, Nat.min_l in Bd by lia.
      rewrite pow256_pow2 in Bd. exact Bd. }
    assert (Es : b + 256 * sgn sign (8 * Z.of_nat (S n)) x
               = sgn sign (8 * Z.of_nat (S (S n))) (b + 256 * x)).
    { destruct sign; cbn [sgn]; [|reflexivity].
      replace (8 * Z.of_nat (S (S n))) with (8 * Z.of_nat (S n) + 8) by lia.
      symmetry. apply to_signed_step; lia. }
    rewrite Es. apply sgn_range; [lia|].
    replace (8 * Z.of_nat (S (S n))) with (8 + 8 * Z.of_nat (S n)) by lia.
    rewrite Z.pow_add_r by lia. change (2 ^ 8) with 256. lia.
Qed.

Lemma deref_rev l i : 0 < i <= Z.of_nat (length l) ->
  deref l (i - 1) = deref (rev l) (Z.of_nat (length l) - i).
Proof.
  intros H.
  destruct (deref_ok l (i - 1) ltac:(lia)) as (b & Hn & ->).
  destruct (deref_ok (rev l) (Z.of_nat (length l) - i) ltac:(rewrite rev_length; lia)) as (b' & Hn' & ->).
  f_equal.
  apply (nth_error_nth _ _ 0) in Hn. apply (nth_error_nth _ _ 0) in Hn'.
  rewrite rev_nth in Hn' by lia. rewrite <- Hn, <- Hn'. f_equal. lia.
Qed.

Lemma load_backward_rev sign w n l i :
  Z.of_nat (S n) <= i <= Z.of_nat (length l) ->
  load_backward sign w n l i = load_forward sign w n (rev l) (Z.of_nat (length l) - i).
Proof.
  revert i. induction n as [|n IH]; intros i H; cbn [load_backward load_forward];
    rewrite deref_rev by lia; [reflexivity|].
  rewrite IH by lia. replace (Z.of_nat (length l) - (i - 1)) with (Z.of_nat (length l) - i + 1) by lia.
  reflexivity.
Qed.

Lemma firstn_skipn_rev {A} (l : list A) i n : (i + n <= length l)%nat ->
  firstn n (skipn (length l - i - n) (rev l)) = rev (firstn n (skipn i l)).
Proof.
  intros H.
  rewrite skipn_rev, firstn_rev. f_equal.
  rewrite firstn_length.
  replace (length l - (length l - i - n))%nat with (i + n)%nat by lia.
  rewrite Nat.min_l by lia. replace (i + n - n)%nat with i by lia.
  replace (firstn (i + n) l) with (firstn i l ++ firstn n (skipn i l)).
  2:{ rewrite <- (firstn_skipn i l) at 3. rewrite firstn_app, firstn_length, Nat.min_l by lia.
      rewrite firstn_firstn, Nat.min_r by lia. replace (i + n - i)%nat with n by lia. reflexivity. }
  rewrite skipn_app, firstn_length, Nat.min_l, Nat.sub_diag by lia.
  rewrite skipn_all2 by (rewrite firstn_length; lia). reflexivity.
Qed.

Lemma load_backward_ok sign w n l i : bytes_ok l ->
  0 <= i -> i + Z.of_nat (S n) <= Z.of_nat (length l) -> 8 * Z.of_nat (S n) <= w ->
  load_backward sign w n l (i + Z.of_nat (S n)) =
  Ok (sgn sign (8 * Z.of_nat (S n)) (le_dec (rev (firstn (S n) (skipn (Z.to_nat i) l))))).
Proof.
  intros Hl Hi Hb Hw. rewrite load_backward_rev by lia.
  rewrite load_forward_ok; try lia.
  - rewrite <- firstn_skipn_rev by lia.
    replace (Z.to_nat (Z.of_nat (length l) - (i + Z.of_nat (S n))))
      with (length l - Z.to_nat i - S n)%nat by lia. reflexivity.
  - unfold bytes_ok in *. apply Forall_rev. exact Hl.
  - rewrite rev_length. lia.
Qed.

Lemma assign_ok l i v : 0 <= i < Z.of_nat (length l) ->
  assign l i v = Ok (firstn (Z.to_nat i) l ++ [v] ++ skipn (S (Z.to_nat i)) l).
Proof.
  intros H. unfold assign. destruct (Z.leb_spec 0 i), (Z.ltb_spec i (Z.of_nat (length l))); try lia. reflexivity.
Qed.

Lemma store_forward_ok n l i v :
  0 <= i -> i + Z.of_nat (S n) <= Z.of_nat (length l) ->
  store_forward n l i v =
  Ok (firstn (Z.to_nat i) l ++ le_enc (S n) v ++ skipn (Z.to_nat i + S n) l).
Proof.
  revert l i v. induction n as [|n IH]; intros l i v Hi Hb.
  - cbn [store_forward]. rewrite assign_ok by lia. cbn [obind le_enc].
    rewrite Nat.add_1_r. reflexivity.
  - cbn [store_forward]. rewrite assign_ok by lia. cbn [obind].
    set (l1 := firstn (Z.to_nat i) l ++ [v mod 256] ++ skipn (S (Z.to_nat i)) l).
    assert (L1 : length l1 = length l).
    { unfold l1. rewrite !app_length, firstn_length, skipn_length. cbn [length]. lia. }
    rewrite IH by lia. f_equal.
    replace (Z.to_nat (i + 1)) with (S (Z.to_nat i)) by lia.
    rewrite Z.shiftr_div_pow2 by lia. change (2 ^ 8) with 256.
    change (le_enc (S (S n)) v) with (v mod 256 :: le_enc (S n) (v / 256)).
    assert (F : firstn (S (Z.to_nat i)) l1 = firstn (Z.to_nat i) l ++ [v mod 256]).
    { unfold l1. rewrite app_assoc. rewrite firstn_app.
      rewrite app_length, firstn_length, Nat.min_l by lia. cbn [length].
      replace (S (Z.to_nat i) - (Z.to_nat i + 1))%nat with O by lia.
      rewrite firstn_all2 by (rewrite app_length, firstn_length; cbn [length]; lia).
      cbn [firstn]. apply app_nil_r. }
    assert (K : skipn (S (Z.to_nat i) + S n) l1 = skipn (Z.to_nat i + S (S n)) l).
    { unfold l1. rewrite app_assoc. rewrite skipn_app.
      rewrite app_length, firstn_length, Nat.min_l by lia. cbn [length].
      rewrite skipn_all2 by (rewrite app_length, firstn_length; cbn [length]; lia).
      cbn [app]. rewrite skipn_skipn. f_equal. lia. }
    rewrite F, K, <- !app_assoc. reflexivity.
Qed.

Lemma assign_rev l i v : 0 < i <= Z.of_nat (length l) ->
  assign l (i - 1) v = omap (@rev Z) (assign (rev l) (Z.of_nat (length l) - i) v).
Proof.
  intros H. rewrite !assign_ok by (rewrite ?rev_length; lia). unfold omap. cbn [obind]. f_equal.
  rewrite !rev_app_distr. cbn [rev app]. rewrite <- app_assoc. cbn [app].
  rewrite firstn_rev, rev_involutive, skipn_rev, rev_involutive.
  replace (length l - S (Z.to_nat (Z.of_nat (length l) - i)))%nat with (Z.to_nat (i - 1)) by lia.
  replace (length l - Z.to_nat (Z.of_nat (length l) - i))%nat with (S (Z.to_nat (i - 1))) by lia.
  reflexivity.
Qed.

Lemma assign_length l i v l' : assign l i v = Ok l' -> length l' = length l.
Proof.
  unfold assign. destruct (Z.leb_spec 0 i), (Z.ltb_spec i (Z.of_nat (length l))); cbn [andb]; try discriminate.
  intros E. assert (E' : l' = firstn (Z.to_nat i) l ++ [v] ++ skipn (S (Z.to_nat i)) l) by congruence.
  rewrite E', !app_length, firstn_length, skipn_length. cbn [length]. lia.
Qed.

Lemma store_backward_rev n l i v :
  Z.of_nat (S n) <= i <= Z.of_nat (length l) ->
  store_backward n l i v = omap (@rev Z) (store_forward n (rev l) (Z.of_nat (length l) - i) v).
Proof.
  revert l i v. induction n as [|n IH]; intros l i v H.
  - cbn [store_backward store_forward]. rewrite assign_rev by lia.
    rewrite assign_ok by (rewrite rev_length; lia). reflexivity.
  - cbn [store_backward store_forward]. rewrite assign_rev by lia.
    destruct (assign (rev l) (Z.of_nat (length l) - i) (v mod 256)) as [l1|e|u] eqn:E; cbn [omap obind]; try reflexivity.
    pose proof (assign_length _ _ _ _ E) as L. rewrite rev_length in L.
    rewrite IH by (rewrite rev_length; lia).
    rewrite rev_involutive, rev_length, L.
    replace (Z.of_nat (length l) - (i - 1)) with (Z.of_nat (length l) - i + 1) by lia. reflexivity.
Qed.

Lemma store_backward_ok n l i v :
  0 <= i -> i + Z.of_nat (S n) <= Z.of_nat (length l) ->
  store_backward n l (i + Z.of_nat (S n)) v =
  Ok (firstn (Z.to_nat i) l ++ rev (le_enc (S n) v) ++ skipn (Z.to_nat i + S n) l).
Proof.
  intros Hi Hb. rewrite store_backward_rev by lia.
  rewrite store_forward_ok by (rewrite ?rev_length; lia). unfold omap. cbn [obind]. f_equal.
  rewrite !rev_app_distr, <- app_assoc.
  rewrite firstn_rev, rev_involutive, skipn_rev, rev_involutive.
  do 2 f_equal; try f_equal; lia.
Qed.

(** ** Characterisation of load/store on a little-endian host *)
Lemma load_le_ok sign n l i : bytes_ok l -> (1 <= n)%nat -> 0 <= i -> i + Z.of_nat n <= Z.of_nat (length l) ->
  endian_load LittleE LittleE sign n l i
  = Ok (sgn sign (8 * Z.of_nat n) (le_dec (firstn n (skipn (Z.to_nat i) l)))).
Proof.
  intros Hl Hn Hi Hb. unfold endian_load, load_dispatch. cbn [endian_eqb].
  destruct n as [|n]; [lia|]. replace (S n - 1)%nat with n by lia.
  apply load_forward_ok; auto; lia.
Qed.

Lemma load_be_ok sign n l i : bytes_ok l -> (1 <= n)%nat -> 0 <= i -> i + Z.of_nat n <= Z.of_nat (length l) ->
  endian_load LittleE BigE sign n l i
  = Ok (sgn sign (8 * Z.of_nat n) (le_dec (rev (firstn n (skipn (Z.to_nat i) l))))).
Proof.
  intros Hl Hn Hi Hb. unfold endian_load, load_dispatch. cbn [endian_eqb].
  destruct n as [|n]; [lia|]. replace (S n - 1)%nat with n by lia.
  apply load_backward_ok; auto; lia.
Qed.

Lemma store_le_ok n l i v : (1 <= n)%nat -> 0 <= i -> i + Z.of_nat n <= Z.of_nat (length l) ->
  endian_store LittleE LittleE n l i v
  = Ok (firstn (Z.to_nat i) l ++ le_enc n v ++ skipn (Z.to_nat i + n) l).
Proof.
  intros Hn Hi Hb. unfold endian_store, store_dispatch. cbn [endian_eqb].
  destruct n as [|n]; [lia|]. replace (S n - 1)%nat with n by lia.
  apply store_forward_ok; auto; lia.
Qed.

Lemma store_be_ok n l i v : (1 <= n)%nat -> 0 <= i -> i + Z.of_nat n <= Z.of_nat (length l) ->
  endian_store LittleE BigE n l i v
  = Ok (firstn (Z.to_nat i) l ++ rev (le_enc n v) ++ skipn (Z.to_nat i + n) l).
Proof.
  intros Hn Hi Hb. unfold endian_store, store_dispatch. cbn [endian_eqb].
  destruct n as [|n]; [lia|]. replace (S n - 1)%nat with n by lia.
  apply store_backward_ok; auto; lia.
Qed.

(** Round trip on any host, any tag, signed or unsigned. *)
Definition int_in (sign : bool) (n : nat) (v : Z) : Prop :=
  if sign then in_signed (8 * Z.of_nat n) v else in_unsigned (8 * Z.of_nat n) v.

Lemma sgn_dec_enc sign n v : (1 <= n)%nat -> int_in sign n v ->
  sgn sign (8 * Z.of_nat n) (le_dec (le_enc n v)) = v.
Proof.
  intros Hn Hv. rewrite le_dec_enc, pow256_pow2.
  destruct sign; cbn [sgn int_in] in *.
  - apply to_signed_id; [lia|exact Hv].
  - apply Z.mod_small. exact Hv.
Qed.

Lemma slice_splice (l bs : list Z) i : (i + length bs <= length l)%nat ->
  firstn (length bs) (skipn i (firstn i l ++ bs ++ skipn (i + length bs) l)) = bs.
Proof.
  intros H. pose proof (buf_set_some l i bs H) as E.
  pose proof (buf_get_set_same _ _ _ _ E) as G.
  rewrite buf_get_some in G; [congruence|].
  rewrite (buf_set_length _ _ _ _ E). exact H.
Qed.

Lemma splice_bytes l bs i n : bytes_ok l -> bytes_ok bs ->
  bytes_ok (firstn i l ++ bs ++ skipn n l).
Proof.
  intros Hl Hb. unfold bytes_ok in *. apply Forall_app; split; [|apply Forall_app; split]; auto.
  - rewrite <- (firstn_skipn i l) in Hl. apply Forall_app in Hl. tauto.
  - rewrite <- (firstn_skipn n l) in Hl. apply Forall_app in Hl. tauto.
Qed.

Lemma endian_roundtrip native tag sign n l i v : bytes_ok l -> (1 <= n)%nat ->
  0 <= i -> i + Z.of_nat n <= Z.of_nat (length l) -> int_in sign n v ->
  exists l', endian_store native tag n l i v = Ok l' /\
             endian_load native tag sign n l' i = Ok v /\
             length l' = length l /\ bytes_ok l' /\
             (forall k, (k < Z.to_nat i \/ Z.to_nat i + n <= k)%nat -> nth_error l' k = nth_error l k).
Proof.
  intros Hl Hn Hi Hb Hv.
  assert (Frame : forall bs, length bs = n -> bytes_ok bs ->
    length (firstn (Z.to_nat i) l ++ bs ++ skipn (Z.to_nat i + n) l) = length l /\
    bytes_ok (firstn (Z.to_nat i) l ++ bs ++ skipn (Z.to_nat i + n) l) /\
    (forall k, (k < Z.to_nat i \/ Z.to_nat i + n <= k)%nat ->
       nth_error (firstn (Z.to_nat i) l ++ bs ++ skipn (Z.to_nat i + n) l) k = nth_error l k)).
  { intros bs Hbl Hbb. subst n.
    assert (E : buf_set l (Z.to_nat i) bs =
      Some (firstn (Z.to_nat i) l ++ bs ++ skipn (Z.to_nat i + length bs) l)) by (apply buf_set_some; lia).
    split; [exact (buf_set_length _ _ _ _ E)|]. split; [now apply splice_bytes|].
    intros k Hk. rewrite (nth_error_buf_set _ _ _ _ k E).
    destruct (Nat.leb_spec (Z.to_nat i) k), (Nat.ltb_spec k (Z.to_nat i + length bs)); cbn [andb]; auto; lia. }
  assert (Case : endian_eqb native tag = true \/ endian_eqb native tag = false) by (destruct (endian_eqb native tag); auto).
  destruct Case as [Ce|Ce].
  - exists (firstn (Z.to_nat i) l ++ le_enc n v ++ skipn (Z.to_nat i + n) l).
    destruct (Frame (le_enc n v) (le_enc_length n v) (le_enc_bytes n v)) as (F1 & F2 & F3).
    split; [|split; [|auto]].
    + unfold endian_store, store_dispatch. rewrite Ce. destruct n as [|n]; [lia|].
      replace (S n - 1)%nat with n by lia. apply store_forward_ok; lia.
    + unfold endian_load, load_dispatch. rewrite Ce. destruct n as [|n]; [lia|].
      replace (S n - 1)%nat with n by lia. rewrite load_forward_ok; auto; try lia.
      f_equal. transitivity (sgn sign (8 * Z.of_nat (S n)) (le_dec (le_enc (S n) v)));
        [do 2 f_equal|apply sgn_dec_enc; [lia|exact Hv]].
      pose proof (slice_splice l (le_enc (S n) v) (Z.to_nat i)) as G.
      rewrite le_enc_length in G. apply G. lia.
  - exists (firstn (Z.to_nat i) l ++ rev (le_enc n v) ++ skipn (Z.to_nat i + n) l).
    assert (Hrl : length (rev (le_enc n v)) = n) by (rewrite rev_length; apply le_enc_length).
    assert (Hrb : bytes_ok (rev (le_enc n v))) by (unfold bytes_ok; apply Forall_rev, le_enc_bytes).
    destruct (Frame _ Hrl Hrb) as (F1 & F2 & F3).
    split; [|split; [|auto]].
    + unfold endian_store, store_dispatch. rewrite Ce. destruct n as [|n]; [lia|].
      replace (S n - 1)%nat with n by lia. apply store_backward_ok; lia.
    + unfold endian_load, load_dispatch. rewrite Ce. destruct n as [|n]; [lia|].
      replace (S n - 1)%nat with n by lia. rewrite load_backward_ok; auto; try lia.
      f_equal. transitivity (sgn sign (8 * Z.of_nat (S n)) (le_dec (le_enc (S n) v)));
        [do 2 f_equal|apply sgn_dec_enc; [lia|exact Hv]].
      rewrite <- (rev_involutive (le_enc (S n) v)) at 2. f_equal.
      pose proof (slice_splice l (rev (le_enc (S n) v)) (Z.to_nat i)) as G.
      rewrite Hrl in G. apply G. lia.
Qed.

(** An access that leaves the buffer is undefined behaviour, never a silent
    wrong value. *)
Lemma load_forward_oob sign w n l i : 0 <= i -> Z.of_nat (length l) < i + Z.of_nat (S n) ->
  load_forward sign w n l i = UB UBOutOfBounds.
Proof.
  revert i. induction n as [|n IH]; intros i Hi Hb.
  - cbn [load_forward]. unfold deref. destruct (Z.leb_spec 0 i), (Z.ltb_spec i (Z.of_nat (length l))); try lia; reflexivity.
  - cbn [load_forward]. destruct (Z.ltb_spec i (Z.of_nat (length l))) as [H|H].
    + destruct (deref_ok l i ltac:(lia)) as (b & _ & ->). cbn [obind]. rewrite IH by lia. reflexivity.
    + unfold deref. destruct (Z.leb_spec 0 i), (Z.ltb_spec i (Z.of_nat (length l))); try lia; reflexivity.
Qed.

Lemma store_forward_oob n l i v : 0 <= i -> Z.of_nat (length l) < i + Z.of_nat (S n) ->
  store_forward n l i v = UB UBOutOfBounds.
Proof.
  revert l i v. induction n as [|n IH]; intros l i v Hi Hb.
  - cbn [store_forward]. unfold assign. destruct (Z.leb_spec 0 i), (Z.ltb_spec i (Z.of_nat (length l))); try lia; reflexivity.
  - cbn [store_forward]. destruct (Z.ltb_spec i (Z.of_nat (length l))) as [H|H].
    + destruct (assign l i (v mod 256)) as [l1|e|u] eqn:E.
      * cbn [obind]. apply IH; [lia|]. rewrite (assign_length _ _ _ _ E). lia.
      * unfold assign in E. destruct (_ && _); discriminate.
      * unfold assign in E. destruct (_ && _); inversion E; reflexivity.
    + unfold assign. destruct (Z.leb_spec 0 i), (Z.ltb_spec i (Z.of_nat (length l))); try lia; reflexivity.
Qed.

Lemma big_host_witness :
  exists l v, endian_store BigE LittleE 2 l 0 v = Ok (rev (le_enc 2 v)) /\ rev (le_enc 2 v) <> le_enc 2 v.
Proof. exists [0; 0], 1. vm_compute. split; [reflexivity|discriminate]. Qed.

(** Bytes, integers as byte strings, buffers.  Definitions and basic lemmas. *)
From Coq Require Import ZArith List Lia Bool.
From Coq Require Import ZifyBool ZifyNat.
Import ListNotations.
From Verif Require Import Outcome.
Local Open Scope Z_scope.

(** A byte is a [Z] in [0,256). *)
Definition is_byte (b : Z) : Prop := 0 <= b < 256.
Definition bytes_ok (l : list Z) : Prop := Forall is_byte l.
Definition is_byteb (b : Z) : bool := (0 <=? b) && (b <? 256).

(** The radix-256 digits of [z], least significant first, [n] of them: what
    "the [n]-byte little-endian image of the integer [z]" means. *)
Fixpoint le_enc (n : nat) (z : Z) : list Z :=
  match n with
  | O => []
  | S m => z mod 256 :: le_enc m (z / 256)
  end.

(** The value of a little-endian byte string. *)
Fixpoint le_dec (l : list Z) : Z :=
  match l with
  | [] => 0
  | b :: r => b + 256 * le_dec r
  end.

(** 2^(8n): number of values of an [n]-byte integer. *)
Definition pow256 (n : nat) : Z := 256 ^ Z.of_nat n.

(** Reinterpretation of an unsigned [w]-bit value as two's complement. *)
Definition to_signed (w : Z) (z : Z) : Z :=
  let u := z mod 2 ^ w in if u <? 2 ^ (w - 1) then u else u - 2 ^ w.

Definition in_signed (w z : Z) : Prop := - 2 ^ (w - 1) <= z < 2 ^ (w - 1).
Definition in_unsigned (w z : Z) : Prop := 0 <= z < 2 ^ w.
Definition in_signedb (w z : Z) : bool := (- 2 ^ (w - 1) <=? z) && (z <? 2 ^ (w - 1)).
Definition in_unsignedb (w z : Z) : bool := (0 <=? z) && (z <? 2 ^ w).

(** Buffer access: [n] bytes at index [pos] of a vector; [None] if any of them
    lies outside it. *)
Definition buf_get (l : list Z) (pos n : nat) : option (list Z) :=
  if (pos + n <=? length l)%nat then Some (firstn n (skipn pos l)) else None.

Definition buf_set (l : list Z) (pos : nat) (bs : list Z) : option (list Z) :=
  if (pos + length bs <=? length l)%nat
  then Some (firstn pos l ++ bs ++ skipn (pos + length bs) l) else None.

(** ** Lemmas *)

Lemma is_byteb_spec b : is_byteb b = true <-> is_byte b.
Proof. unfold is_byteb, is_byte. lia. Qed.

Lemma le_enc_length n z : length (le_enc n z) = n.
Proof. revert z; induction n as [|n IH]; intros z; cbn; [reflexivity|now rewrite IH]. Qed.

Lemma le_enc_bytes n z : bytes_ok (le_enc n z).
Proof.
  unfold bytes_ok. revert z; induction n as [|n IH]; intros z; cbn [le_enc]; constructor; auto.
  unfold is_byte. apply Z.mod_pos_bound; lia.
Qed.

Lemma pow256_S n : pow256 (S n) = 256 * pow256 n.
Proof. unfold pow256. rewrite Nat2Z.inj_succ, Z.pow_succ_r by lia. reflexivity. Qed.
Lemma pow256_0 : pow256 0 = 1. Proof. reflexivity. Qed.
Lemma pow256_pos n : 0 < pow256 n.
Proof. unfold pow256. apply Z.pow_pos_nonneg; lia. Qed.

Lemma le_dec_bound l : bytes_ok l -> 0 <= le_dec l < pow256 (length l).
Proof.
  induction 1 as [|b l Hb Hl IH]; cbn [le_dec length].
  - rewrite pow256_0; lia.
  - rewrite pow256_S. unfold is_byte in Hb. lia.
Qed.

Lemma le_dec_enc n z : le_dec (le_enc n z) = z mod pow256 n.
Proof.
  revert z; induction n as [|n IH]; intros z; cbn [le_enc le_dec].
  - rewrite pow256_0, Z.mod_1_r; reflexivity.
  - rewrite IH, pow256_S.
    rewrite Z.rem_mul_r; [lia | lia | apply pow256_pos].
Qed.

Lemma le_enc_dec l : bytes_ok l -> le_enc (length l) (le_dec l) = l.
Proof.
  induction 1 as [|b l Hb Hl IH]; cbn [length le_enc le_dec]; [reflexivity|].
  unfold is_byte in Hb.
  replace ((b + 256 * le_dec l) mod 256) with b.
  2:{ rewrite (Z.mul_comm 256), Z.mod_add by lia. rewrite Z.mod_small; lia. }
  replace ((b + 256 * le_dec l) / 256) with (le_dec l).
  2:{ rewrite (Z.mul_comm 256), Z.div_add by lia. rewrite Z.div_small; lia. }
  now rewrite IH.
Qed.

Lemma le_dec_app a b : le_dec (a ++ b) = le_dec a + pow256 (length a) * le_dec b.
Proof.
  induction a as [|x a IH]; cbn [app le_dec length].
  - rewrite pow256_0. lia.
  - rewrite pow256_S, IH. lia.
Qed.

Lemma le_dec_inj a b : bytes_ok a -> bytes_ok b -> length a = length b ->
  le_dec a = le_dec b -> a = b.
Proof.
  intros Ha Hb Hl Hd. rewrite <- (le_enc_dec a), <- (le_enc_dec b) by assumption.
  now rewrite Hl, Hd.
Qed.

Lemma pow256_pow2 n : pow256 n = 2 ^ (8 * Z.of_nat n).
Proof. unfold pow256. rewrite Z.pow_mul_r by lia. reflexivity. Qed.

Lemma to_signed_range w z : 0 < w -> in_signed w (to_signed w z).
Proof.
  intros Hw. unfold in_signed, to_signed.
  assert (H2 : 2 ^ w = 2 * 2 ^ (w - 1)).
  { rewrite <- Z.pow_succ_r by lia. f_equal. lia. }
  pose proof (Z.mod_pos_bound z (2 ^ w)) as Hb.
  assert (Hp : 0 < 2 ^ (w - 1)) by (apply Z.pow_pos_nonneg; lia).
  destruct (Z.ltb_spec (z mod 2 ^ w) (2 ^ (w - 1))); lia.
Qed.

Lemma to_signed_id w z : 0 < w -> in_signed w z -> to_signed w (z mod 2 ^ w) = z.
Proof.
  intros Hw. unfold in_signed, to_signed. intros Hz.
  assert (H2 : 2 ^ w = 2 * 2 ^ (w - 1)).
  { rewrite <- Z.pow_succ_r by lia. f_equal. lia. }
  assert (Hp : 0 < 2 ^ (w - 1)) by (apply Z.pow_pos_nonneg; lia).
  rewrite Z.mod_mod by lia.
  destruct (Z.leb_spec 0 z) as [Hz0|Hz0].
  - rewrite Z.mod_small by lia. destruct (Z.ltb_spec z (2 ^ (w - 1))); lia.
  - assert (Hm : z mod 2 ^ w = z + 2 ^ w).
    { rewrite <- (Z.mod_small (z + 2 ^ w) (2 ^ w)) by lia.
      rewrite <- (Z.mod_add z 1) by lia. f_equal. lia. }
    rewrite Hm. destruct (Z.ltb_spec (z + 2 ^ w) (2 ^ (w - 1))); lia.
Qed.

Lemma to_signed_mod w z : 0 < w -> to_signed w z mod 2 ^ w = z mod 2 ^ w.
Proof.
  intros Hw. unfold to_signed.
  assert (Hp : 0 < 2 ^ w) by (apply Z.pow_pos_nonneg; lia).
  destruct (_ <? _).
  - rewrite Z.mod_mod; lia.
  - replace (z mod 2 ^ w - 2 ^ w) with (z mod 2 ^ w + (-1) * 2 ^ w) by lia.
    rewrite Z.mod_add by lia. rewrite Z.mod_mod; lia.
Qed.

Lemma to_signed_id' w z : 0 < w -> in_signed w z -> to_signed w z = z.
Proof.
  intros Hw Hz. rewrite <- (to_signed_id w z Hw Hz) at 2.
  unfold to_signed. rewrite Z.mod_mod; [reflexivity|].
  assert (0 < 2 ^ w) by (apply Z.pow_pos_nonneg; lia). lia.
Qed.

(** *** lists *)
Lemma skipn_skipn {A} (l : list A) a b : skipn a (skipn b l) = skipn (a + b) l.
Proof.
  revert l. induction b as [|b IH]; intros l; [now rewrite Nat.add_0_r|].
  rewrite Nat.add_succ_r. destruct l as [|x l]; [now rewrite !skipn_nil|]. cbn [skipn]. apply IH.
Qed.

(** *** buffers *)
Lemma buf_get_some l pos n : (pos + n <= length l)%nat ->
  buf_get l pos n = Some (firstn n (skipn pos l)).
Proof. intros H. unfold buf_get. destruct (Nat.leb_spec (pos + n) (length l)); [reflexivity|lia]. Qed.

Lemma buf_set_some l pos bs : (pos + length bs <= length l)%nat ->
  buf_set l pos bs = Some (firstn pos l ++ bs ++ skipn (pos + length bs) l).
Proof. intros H. unfold buf_set. destruct (Nat.leb_spec (pos + length bs) (length l)); [reflexivity|lia]. Qed.

Lemma buf_get_length l pos n r : buf_get l pos n = Some r -> length r = n.
Proof.
  unfold buf_get. destruct (Nat.leb_spec (pos + n) (length l)); intros E; inversion E; subst.
  rewrite firstn_length, skipn_length. lia.
Qed.

Lemma buf_set_length l pos bs l' : buf_set l pos bs = Some l' -> length l' = length l.
Proof.
  unfold buf_set. destruct (Nat.leb_spec (pos + length bs) (length l)); intros E; inversion E; subst.
  rewrite !app_length, firstn_length, skipn_length. lia.
Qed.

Lemma buf_set_bytes l pos bs l' : bytes_ok l -> bytes_ok bs ->
  buf_set l pos bs = Some l' -> bytes_ok l'.
Proof.
  unfold buf_set, bytes_ok. destruct (Nat.leb_spec (pos + length bs) (length l)); intros Hl Hb E; inversion E; subst.
  apply Forall_app; split; [|apply Forall_app; split]; auto.
  - rewrite <- (firstn_skipn pos l) in Hl. apply Forall_app in Hl. tauto.
  - rewrite <- (firstn_skipn (pos + length bs) l) in Hl. apply Forall_app in Hl. tauto.
Qed.

Lemma buf_get_bytes l pos n r : bytes_ok l -> buf_get l pos n = Some r -> bytes_ok r.
Proof.
  unfold buf_get, bytes_ok. destruct (Nat.leb_spec (pos + n) (length l)); intros Hl E; inversion E; subst.
  rewrite <- (firstn_skipn pos l) in Hl. apply Forall_app in Hl. destruct Hl as [_ Hl].
  rewrite <- (firstn_skipn n (skipn pos l)) in Hl. apply Forall_app in Hl. tauto.
Qed.

Lemma nth_error_buf_get l pos n r i : buf_get l pos n = Some r -> (i < n)%nat ->
  nth_error r i = nth_error l (pos + i).
Proof.
  unfold buf_get. destruct (Nat.leb_spec (pos + n) (length l)); intros E Hi; inversion E; subst.
  clear E. rewrite <- (firstn_skipn pos l) at 2.
  rewrite nth_error_app2 by (rewrite firstn_length; lia).
  rewrite firstn_length, Nat.min_l by lia. replace (pos + i - pos)%nat with i by lia.
  rewrite <- (firstn_skipn n (skipn pos l)) at 2.
  rewrite nth_error_app1; [reflexivity|]. rewrite firstn_length, skipn_length. lia.
Qed.

(** Pointwise description of [buf_set]. *)
Lemma nth_error_buf_set l pos bs l' i : buf_set l pos bs = Some l' ->
  nth_error l' i =
  if ((pos <=? i) && (i <? pos + length bs))%nat then nth_error bs (i - pos) else nth_error l i.
Proof.
  unfold buf_set. destruct (Nat.leb_spec (pos + length bs) (length l)) as [H|H]; intros E; inversion E; subst.
  clear E.
  destruct (Nat.leb_spec pos i) as [H1|H1]; cbn [andb].
  - rewrite nth_error_app2 by (rewrite firstn_length; lia).
    rewrite firstn_length, Nat.min_l by lia.
    destruct (Nat.ltb_spec i (pos + length bs)) as [H2|H2].
    + rewrite nth_error_app1 by lia. reflexivity.
    + rewrite nth_error_app2 by lia.
      rewrite <- (firstn_skipn (pos + length bs) l) at 2.
      rewrite (nth_error_app2 (firstn _ l)) by (rewrite firstn_length; lia).
      rewrite firstn_length, Nat.min_l by lia. f_equal. lia.
  - rewrite nth_error_app1 by (rewrite firstn_length; lia).
    rewrite <- (firstn_skipn pos l) at 2. rewrite nth_error_app1; [reflexivity|].
    rewrite firstn_length. lia.
Qed.

Lemma nth_error_ext {A} (l l' : list A) : (forall i, nth_error l i = nth_error l' i) -> l = l'.
Proof.
  revert l'; induction l as [|x l IH]; intros [|y l'] H; auto.
  - specialize (H O); discriminate.
  - specialize (H O); discriminate.
  - pose proof (H O) as H0; cbn in H0; inversion H0; subst. f_equal. apply IH.
    intros i. apply (H (S i)).
Qed.

Lemma buf_get_set_same l pos bs l' : buf_set l pos bs = Some l' ->
  buf_get l' pos (length bs) = Some bs.
Proof.
  intros E. pose proof (buf_set_length _ _ _ _ E) as Hlen.
  unfold buf_set in E. destruct (Nat.leb_spec (pos + length bs) (length l)) as [H|H]; [|discriminate].
  rewrite buf_get_some by lia. inversion E; subst. f_equal.
  rewrite skipn_app, firstn_length, Nat.min_l by lia.
  rewrite skipn_all2 by (rewrite firstn_length; lia).
  rewrite Nat.sub_diag. cbn [skipn app].
  rewrite firstn_app, Nat.sub_diag. cbn [firstn]. rewrite firstn_all, app_nil_r. reflexivity.
Qed.

Lemma buf_get_set_other l pos bs l' p n : buf_set l pos bs = Some l' ->
  (p + n <= pos \/ pos + length bs <= p)%nat ->
  buf_get l' p n = buf_get l p n.
Proof.
  intros E Hd. pose proof (buf_set_length _ _ _ _ E) as Hlen.
  destruct (Nat.leb_spec (p + n) (length l)) as [H|H].
  2:{ unfold buf_get. destruct (Nat.leb_spec (p + n) (length l')), (Nat.leb_spec (p + n) (length l)); try lia. reflexivity. }
  rewrite !buf_get_some by lia. f_equal. apply nth_error_ext. intros i.
  destruct (Nat.ltb_spec i n) as [Hi|Hi].
  - assert (E1 : buf_get l' p n = Some (firstn n (skipn p l'))) by (apply buf_get_some; lia).
    assert (E2 : buf_get l p n = Some (firstn n (skipn p l))) by (apply buf_get_some; lia).
    rewrite (nth_error_buf_get _ _ _ _ i E1 Hi), (nth_error_buf_get _ _ _ _ i E2 Hi).
    rewrite (nth_error_buf_set _ _ _ _ (p + i)%nat E).
    destruct (Nat.leb_spec pos (p + i)), (Nat.ltb_spec (p + i) (pos + length bs)); cbn [andb]; auto; lia.
  - transitivity (@None Z); [|symmetry]; apply nth_error_None; rewrite firstn_length; lia.
Qed.

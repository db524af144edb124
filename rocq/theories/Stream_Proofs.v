(** Lemmas about the stream model. *)
From Coq Require Import ZArith List Bool Lia.
From Coq Require Import ZifyBool ZifyNat.
Import ListNotations.
From Verif Require Import Outcome Bytes Float64 Stream_Model.
Local Open Scope Z_scope.

(** [n] bytes of [F] from offset [o]. *)
Definition slice (F : list Z) (o n : nat) : list Z := firstn n (skipn o F).

Lemma slice_length F o n : (o + n <= length F)%nat -> length (slice F o n) = n.
Proof. intros H. unfold slice. rewrite firstn_length, skipn_length. lia. Qed.
Lemma slice_length_le F o n : (length (slice F o n) <= n)%nat.
Proof. unfold slice. rewrite firstn_length. lia. Qed.

Lemma slice_app_l A B o n : (o + n <= length A)%nat -> slice (A ++ B) o n = slice A o n.
Proof.
  intros H. unfold slice. rewrite skipn_app, firstn_app, skipn_length.
  replace (n - (length A - o))%nat with 0%nat by lia. cbn [firstn]. now rewrite app_nil_r.
Qed.
Lemma slice_app_r A B o n : (length A <= o)%nat -> slice (A ++ B) o n = slice B (o - length A) n.
Proof. intros H. unfold slice. rewrite skipn_app, skipn_all2 by lia. reflexivity. Qed.
Lemma slice_app_mid A B C n : n = length B -> slice (A ++ B ++ C) (length A) n = B.
Proof.
  intros ->. unfold slice. rewrite skipn_app, skipn_all2, Nat.sub_diag by lia. cbn [app skipn].
  rewrite firstn_app, Nat.sub_diag. cbn [firstn]. rewrite firstn_all, app_nil_r. reflexivity.
Qed.
Lemma slice_all F : slice F 0 (length F) = F.
Proof. unfold slice. cbn [skipn]. apply firstn_all. Qed.
Lemma slice_slice F o n a b : (a + b <= n)%nat -> slice (slice F o n) a b = slice F (o + a) b.
Proof.
  intros H. unfold slice. rewrite skipn_firstn_comm, firstn_firstn.
  rewrite skipn_skipn. rewrite Nat.min_l by lia. f_equal. f_equal. lia.
Qed.
Lemma slice_bytes F o n : bytes_ok F -> bytes_ok (slice F o n).
Proof.
  unfold bytes_ok, slice. intros H. apply Forall_forall. intros x Hx.
  rewrite Forall_forall in H. apply H.
  rewrite <- (firstn_skipn o F). apply in_or_app. right.
  rewrite <- (firstn_skipn n (skipn o F)). apply in_or_app. now left.
Qed.
Lemma slice_0_firstn F n : slice F 0 n = firstn n F.
Proof. reflexivity. Qed.
Lemma slice_split F o a b : slice F o (a + b) = slice F o a ++ slice F (o + a) b.
Proof.
  unfold slice. replace (skipn (o + a) F) with (skipn a (skipn o F)) by (rewrite skipn_skipn; f_equal; lia).
  revert a. generalize (skipn o F) as l. induction l as [|x l IH]; intros a.
  - now rewrite !firstn_nil, skipn_nil, firstn_nil.
  - destruct a as [|a]; [reflexivity|]. cbn [Nat.add firstn skipn app]. now rewrite IH.
Qed.

(** ** reading *)
Definition at_pos (F : list Z) (p : nat) : istream := mkIs F p false false.

Lemma is_read_ok F p n : (p + n <= length F)%nat -> is_read (at_pos F p) n = (slice F p n, at_pos F (p + n)).
Proof.
  intros H. unfold is_read, at_pos. cbn [is_eof is_fail is_data is_pos orb].
  fold (slice F p n). rewrite slice_length by lia.
  destruct (Nat.ltb_spec n n); [lia|reflexivity].
Qed.
Lemma is_read_short F p n : (length F < p + n)%nat -> (0 < n)%nat ->
  is_read (at_pos F p) n = (skipn p F, mkIs F (p + length (skipn p F)) true true).
Proof.
  intros H Hn. unfold is_read, at_pos. cbn [is_eof is_fail is_data is_pos orb].
  rewrite firstn_all2 by (rewrite skipn_length; lia).
  destruct (Nat.ltb_spec (length (skipn p F)) n) as [L|L]; [reflexivity|].
  rewrite skipn_length in L. lia.
Qed.

Lemma patch_full old bs : length bs = length old -> patch old bs = bs.
Proof. intros H. unfold patch. rewrite skipn_all2 by lia. apply app_nil_r. Qed.

Lemma read_n_ok F p old : (p + length old <= length F)%nat ->
  read_n (at_pos F p) old = Ok (slice F p (length old), at_pos F (p + length old)).
Proof.
  intros H. unfold read_n. cbn [at_pos is_fail]. fold (at_pos F p). rewrite is_read_ok by lia.
  rewrite patch_full; [reflexivity|]. now apply slice_length.
Qed.
Lemma read_uint_ok F p n old : (p + n <= length F)%nat ->
  read_uint (at_pos F p) n old = Ok (le_dec (slice F p n), at_pos F (p + n)).
Proof.
  intros H. unfold read_uint. rewrite read_n_ok by (rewrite le_enc_length; lia).
  cbn [obind]. now rewrite le_enc_length.
Qed.
Lemma read_f64_ok F p old : (p + 8 <= length F)%nat ->
  read_f64 (at_pos F p) old = Ok (f64_of_bits (le_dec (slice F p 8)), at_pos F (p + 8)).
Proof.
  intros H. unfold read_f64. rewrite read_n_ok by (rewrite le_enc_length; lia).
  cbn [obind]. now rewrite le_enc_length.
Qed.
Lemma read_string_ok F p n : (p + n <= length F)%nat ->
  read_string (at_pos F p) n = Ok (slice F p n, at_pos F (p + n)).
Proof.
  intros H. unfold read_string. cbn [at_pos is_fail]. fold (at_pos F p). rewrite is_read_ok by lia.
  rewrite slice_length by lia. destruct (Nat.ltb_spec n n); [lia|reflexivity].
Qed.
Lemma is_seek_ok s pos : is_fail s = false -> 0 <= pos -> is_seek s pos = at_pos (is_data s) (Z.to_nat pos).
Proof.
  intros H Hp. unfold is_seek. rewrite H. destruct (Z.ltb_spec pos 0); [lia|reflexivity].
Qed.
Lemma is_data_read s n : is_data (snd (is_read s n)) = is_data s.
Proof. unfold is_read. destruct (is_eof s || is_fail s); [reflexivity|]. destruct (_ <? _)%nat; reflexivity. Qed.
Lemma is_data_seek s p : is_data (is_seek s p) = is_data s.
Proof. unfold is_seek. destruct (is_fail s); [reflexivity|]. destruct (p <? 0); reflexivity. Qed.

(** ** writing *)
Definition os_at (D : list Z) (p : nat) : ostream := mkOs D (Z.of_nat p) false.

Lemma file_write_end D p bs : (length D <= p)%nat -> bs <> [] ->
  file_write D p bs = D ++ repeat 0 (p - length D) ++ bs.
Proof.
  intros H Hb. unfold file_write. destruct bs as [|b bs]; [congruence|].
  rewrite firstn_all2 by lia. rewrite skipn_all2; [now rewrite app_nil_r|]. cbn [length]. lia.
Qed.
Lemma file_write_app D bs : file_write D (length D) bs = D ++ bs.
Proof.
  destruct bs as [|b bs]; [cbn; now rewrite app_nil_r|].
  rewrite file_write_end by (congruence || lia). rewrite Nat.sub_diag. reflexivity.
Qed.
(** overwriting inside the file *)
Lemma file_write_in A B C bs : length bs = length B ->
  file_write (A ++ B ++ C) (length A) bs = A ++ bs ++ C.
Proof.
  intros H. destruct bs as [|b bs].
  - destruct B as [|? ?]; [reflexivity|discriminate H].
  - unfold file_write. rewrite firstn_app, firstn_all, Nat.sub_diag. cbn [firstn]. rewrite app_nil_r.
    replace (length A - length (A ++ B ++ C))%nat with 0%nat by (rewrite !app_length; lia). cbn [repeat app].
    replace (skipn (length A + length (b :: bs)) (A ++ B ++ C)) with C; [reflexivity|].
    rewrite H, skipn_app, skipn_all2 by lia. cbn [app].
    replace (length A + length B - length A)%nat with (length B) by lia.
    rewrite skipn_app, skipn_all2, Nat.sub_diag by lia. reflexivity.
Qed.
Lemma os_write_at D p bs : os_write (os_at D p) bs = Ok (os_at (file_write D p bs) (p + length bs)).
Proof.
  unfold os_write, os_at. cbn [os_fail os_data os_pos]. rewrite Nat2Z.id.
  replace (Z.of_nat p + Z.of_nat (length bs)) with (Z.of_nat (p + length bs)) by lia. reflexivity.
Qed.
Lemma os_write_all_end D cs :
  os_write_all (os_at D (length D)) cs = Ok (os_at (D ++ concat cs) (length D + length (concat cs))).
Proof.
  revert D. induction cs as [|c cs IH]; intros D.
  - cbn [os_write_all concat length]. rewrite app_nil_r, Nat.add_0_r. reflexivity.
  - cbn [os_write_all concat]. rewrite os_write_at. cbn [obind]. rewrite file_write_app.
    replace (length D + length c)%nat with (length (D ++ c)) by (rewrite app_length; lia).
    rewrite IH. rewrite <- app_assoc, !app_length, Nat.add_assoc. reflexivity.
Qed.
(** ... starting at or behind the end, something written *)
Lemma os_write_all_gap D p cs : (length D <= p)%nat -> concat cs <> [] ->
  os_write_all (os_at D p) cs =
  Ok (os_at (D ++ repeat 0 (p - length D) ++ concat cs) (p + length (concat cs))).
Proof.
  revert D p. induction cs as [|c cs IH]; intros D p H Hc; [cbn in Hc; congruence|].
  cbn [os_write_all concat] in *. rewrite os_write_at. cbn [obind].
  destruct c as [|b c].
  - cbn [file_write app length] in *. rewrite Nat.add_0_r. now apply IH.
  - rewrite file_write_end by (congruence || lia).
    replace (p + length (b :: c))%nat with (length (D ++ repeat 0 (p - length D) ++ b :: c)) at 1.
    2:{ rewrite !app_length, repeat_length. lia. }
    rewrite os_write_all_end. f_equal. f_equal.
    + now rewrite <- !app_assoc.
    + rewrite !app_length, repeat_length. lia.
Qed.
Lemma os_write_all_nil D p cs : concat cs = [] -> os_write_all (os_at D p) cs = Ok (os_at D p).
Proof.
  revert D p. induction cs as [|c cs IH]; intros D p Hc; [reflexivity|].
  cbn [concat] in Hc. apply app_eq_nil in Hc. destruct Hc as [-> Hc].
  cbn [os_write_all]. rewrite os_write_at. cbn [obind file_write length]. rewrite Nat.add_0_r. now apply IH.
Qed.

Lemma os_seek_at D p q : 0 <= q -> os_seek (os_at D p) q = os_at D (Z.to_nat q).
Proof.
  intros H. unfold os_seek, os_at. cbn [os_fail os_data]. destruct (Z.ltb_spec q 0); [lia|].
  now rewrite Z2Nat.id by lia.
Qed.

(** ** chunks *)
Definition offset_of (ls : list nat) (k : nat) : nat := list_sum (firstn k ls).
Lemma chunk_slice (cs : list (list Z)) rest k c :
  nth_error cs k = Some c ->
  slice (concat cs ++ rest) (offset_of (map (@length Z) cs) k) (length c) = c.
Proof.
  revert k. induction cs as [|x cs IH]; intros [|k] H; try discriminate.
  - cbn in H. inversion H; subst. unfold offset_of. cbn [firstn map list_sum fold_right concat].
    rewrite <- app_assoc. exact (slice_app_mid [] c (concat cs ++ rest) _ eq_refl).
  - cbn [nth_error] in H. unfold offset_of. cbn [map firstn concat].
    change (list_sum (length x :: firstn k (map (length (A:=Z)) cs)))
      with (length x + offset_of (map (@length Z) cs) k)%nat.
    rewrite <- app_assoc. rewrite slice_app_r by lia.
    replace (length x + offset_of (map (@length Z) cs) k - length x)%nat with (offset_of (map (@length Z) cs) k) by lia.
    now apply IH.
Qed.
Lemma concat_length (cs : list (list Z)) : length (concat cs) = list_sum (map (@length Z) cs).
Proof.
  induction cs as [|c cs IH]; [reflexivity|].
  cbn [concat map]. rewrite app_length, IH. reflexivity.
Qed.

Lemma le_dec_enc_small n z : 0 <= z < pow256 n -> le_dec (le_enc n z) = z.
Proof. intros H. rewrite le_dec_enc. apply Z.mod_small. exact H. Qed.

From Coq Require Import ZArith List Bool Lia.
Import ListNotations.
From Verif Require Import Outcome Bytes Sha1_Model Sha1_Spec.
Local Open Scope Z_scope.
Local Notation length := List.length (only parsing).

Definition w32 (x : Z) : Prop := 0 <= x < 2 ^ 32.

Lemma u32_w x : w32 (u32 x).
Proof. apply Z.mod_pos_bound. reflexivity. Qed.
Lemma add32_w x y : w32 (add32 x y).
Proof. apply Z.mod_pos_bound. reflexivity. Qed.

Lemma w32_bits x : w32 x <-> 0 <= x /\ forall i, 32 <= i -> Z.testbit x i = false.
Proof.
  split.
  - intros [L U]. split; [exact L|]. intros i I.
    destruct (Z.eq_dec x 0) as [->|N]; [apply Z.bits_0|].
    apply Z.bits_above_log2; [exact L|].
    apply Z.lt_le_trans with 32; [|exact I]. apply Z.log2_lt_pow2; lia.
  - intros [L B]. split; [exact L|].
    destruct (Z.eq_dec x 0) as [->|N]; [reflexivity|].
    apply Z.log2_lt_pow2; [lia|].
    destruct (Z_lt_ge_dec (Z.log2 x) 32) as [|G]; [assumption|].
    specialize (B (Z.log2 x) ltac:(lia)). rewrite Z.bit_log2 in B by lia. discriminate.
Qed.
Lemma lxor_w x y : w32 x -> w32 y -> w32 (Z.lxor x y).
Proof.
  rewrite !w32_bits. intros [L B] [L' B']. split.
  - apply Z.lxor_nonneg. tauto.
  - intros i I. rewrite Z.lxor_spec, B, B'; auto.
Qed.

Lemma lrot_rotl x n : 0 < n < 32 -> w32 x -> lrot x n = rotl n x.
Proof.
  intros N W. unfold lrot, rotl, u32.
  rewrite Z.shiftl_mul_pow2, Z.shiftr_div_pow2 by lia.
  assert (D : Z.land ((x * 2 ^ n) mod 2 ^ 32) (x / 2 ^ (32 - n)) = 0).
  { apply Z.bits_inj'. intros i I. rewrite Z.land_spec, Z.bits_0.
    rewrite <- Z.shiftr_div_pow2 by lia. rewrite Z.shiftr_spec by lia.
    destruct (Z_lt_ge_dec i n) as [J|J].
    - rewrite Z.mod_pow2_bits_low by lia. rewrite Z.mul_pow2_bits_low by lia. reflexivity.
    - rewrite (proj2 (proj1 (w32_bits x) W)) by lia. apply andb_false_r. }
  rewrite Z.add_nocarry_lxor by exact D. symmetry. apply Z.lxor_lor. exact D.
Qed.
Lemma rotl_w x n : 0 < n < 32 -> w32 x -> w32 (rotl n x).
Proof.
  intros N W. rewrite <- lrot_rotl by assumption. unfold lrot. rewrite w32_bits.
  split.
  - apply Z.lor_nonneg. split; [apply u32_w|]. apply Z.shiftr_nonneg. apply W.
  - intros i I. rewrite Z.lor_spec. rewrite (proj2 (proj1 (w32_bits _) (u32_w _))) by exact I.
    rewrite Z.shiftr_spec by lia. rewrite (proj2 (proj1 (w32_bits _) W)) by lia. reflexivity.
Qed.

Lemma code_ch b c d : w32 b -> w32 d -> Z.lor (Z.land b c) (Z.land (Z.lxor b 0xFFFFFFFF) d) = ch b c d.
Proof.
  intros B D. apply Z.bits_inj'. intros i I. unfold ch.
  rewrite Z.lor_spec, Z.lxor_spec, !Z.land_spec, Z.lxor_spec, Z.lnot_spec by exact I.
  change 0xFFFFFFFF with (Z.ones 32).
  destruct (Z_lt_ge_dec i 32) as [J|J].
  - rewrite Z.ones_spec_low by lia. destruct (Z.testbit b i), (Z.testbit c i), (Z.testbit d i); reflexivity.
  - rewrite (proj2 (proj1 (w32_bits d) D)) by lia. rewrite !andb_false_r, orb_false_r, xorb_false_r. reflexivity.
Qed.
Lemma code_maj b c d : Z.lor (Z.lor (Z.land b c) (Z.land b d)) (Z.land c d) = maj b c d.
Proof.
  apply Z.bits_inj'. intros i I. unfold maj.
  rewrite !Z.lor_spec, !Z.lxor_spec, !Z.land_spec.
  destruct (Z.testbit b i), (Z.testbit c i), (Z.testbit d i); reflexivity.
Qed.

Lemma nth_skipn_add {A} (l : list A) n k d : nth k (skipn n l) d = nth (n + k) l d.
Proof. revert n. induction l; intros [|n]; cbn; auto; destruct k; auto. Qed.

Lemma block_word_spec b t : bytes_ok b -> (length b = 64)%nat -> (t < 16)%nat ->
  block_word b t = word b t /\ w32 (word b t).
Proof.
  intros OK L T. unfold block_word, word.
  assert (E : firstn 4 (skipn (4 * t) b) = map (fun k => nth (t * 4 + k) b 0) [0%nat;1%nat;2%nat;3%nat]).
  { replace (4 * t)%nat with (t * 4)%nat by lia.
    assert (LL : (4 <= length (skipn (t * 4) b))%nat) by (rewrite skipn_length; lia).
    cbn [map]. rewrite <- !nth_skipn_add.
    destruct (skipn (t * 4) b) as [|x0 [|x1 [|x2 [|x3 r]]]]; cbn in LL; try lia. reflexivity. }
  rewrite E. cbn [map big_endian fold_left].
  assert (R : forall k, 0 <= nth k b 0 < 256).
  { intros k. destruct (Nat.lt_ge_cases k (length b)) as [K|K].
    - apply (proj1 (Forall_forall _ _) OK). apply nth_In. exact K.
    - rewrite nth_overflow by lia. lia. }
  pose proof (R (t * 4 + 0)%nat). pose proof (R (t * 4 + 1)%nat). pose proof (R (t * 4 + 2)%nat). pose proof (R (t * 4 + 3)%nat).
  rewrite !Z.shiftl_mul_pow2 by lia. unfold u32, w32, big_endian. cbn [fold_left].
  change (2 ^ 24) with 16777216. change (2 ^ 16) with 65536. change (2 ^ 8) with 256. change (2 ^ 32) with 4294967296.
  split; [|lia]. rewrite Z.mod_small by lia. lia.
Qed.

Lemma sched_fuel b : forall k j t, (t < k)%nat -> (t < j)%nat -> schedule_upto k b t = schedule_upto j b t.
Proof.
  induction k as [|k IH]; intros [|j] t K J; try lia.
  cbn [schedule_upto]. destruct (t <? 16)%nat eqn:T; [reflexivity|].
  apply Nat.ltb_ge in T. cbv zeta.
  rewrite (IH j (t - 3)%nat), (IH j (t - 8)%nat), (IH j (t - 14)%nat), (IH j (t - 16)%nat) by lia. reflexivity.
Qed.
Lemma sched_low b t : (t < 16)%nat -> schedule b t = word b t.
Proof. intros T. unfold schedule. cbn [schedule_upto]. now rewrite (proj2 (Nat.ltb_lt t 16) T). Qed.
Lemma sched_high b t : (16 <= t)%nat -> schedule b t = rotl 1 (Z.lxor (schedule b (t - 3)) (Z.lxor (schedule b (t - 8)) (Z.lxor (schedule b (t - 14)) (schedule b (t - 16))))).
Proof.
  intros T. unfold schedule at 1. cbn [schedule_upto]. rewrite (proj2 (Nat.ltb_ge t 16) T). cbv zeta.
  unfold schedule. rewrite (sched_fuel b t (S (t - 3))), (sched_fuel b t (S (t - 8))), (sched_fuel b t (S (t - 14))), (sched_fuel b t (S (t - 16))) by lia.
  reflexivity.
Qed.
Lemma sched_w b t : bytes_ok b -> (length b = 64)%nat -> w32 (schedule b t).
Proof.
  intros OK L. induction t as [t IH] using (well_founded_induction Wf_nat.lt_wf).
  destruct (Nat.lt_ge_cases t 16) as [T|T].
  - rewrite sched_low by exact T. now apply block_word_spec.
  - rewrite sched_high by exact T. apply rotl_w; [lia|]. repeat apply lxor_w; apply IH; lia.
Qed.

Lemma nth_map_seq f n t : (t < n)%nat -> nth t (map f (seq 0 n)) 0 = f t.
Proof.
  intros T. rewrite nth_indep with (d' := f 0%nat) by (rewrite map_length, seq_length; exact T).
  rewrite map_nth. now rewrite seq_nth by exact T.
Qed.
Lemma expand_spec b : bytes_ok b -> (length b = 64)%nat -> forall k t, (16 <= t)%nat ->
  expand k (map (schedule b) (seq 0 t)) = map (schedule b) (seq 0 (t + k)).
Proof.
  intros OK L. induction k as [|k IH]; intros t T.
  - now rewrite Nat.add_0_r.
  - cbn [expand]. rewrite map_length, seq_length. cbv beta zeta.
    rewrite !nth_map_seq by lia.
    rewrite lrot_rotl; [|lia|repeat apply lxor_w; apply sched_w; assumption].
    rewrite !Z.lxor_assoc. rewrite <- sched_high by exact T.
    replace (map (schedule b) (seq 0 t) ++ [schedule b t]) with (map (schedule b) (seq 0 (S t))).
    + rewrite IH by lia. f_equal. f_equal. lia.
    + rewrite seq_S, map_app. reflexivity.
Qed.

Definition hash_w (h : hash) : Prop := match h with (a, b, c, d, e) => w32 a /\ w32 b /\ w32 c /\ w32 d /\ w32 e end.

Lemma round_w blk v t : hash_w v -> hash_w (round blk v t).
Proof.
  destruct v as [[[[a b] c] d] e]. intros (A & B & C & D & E). cbn [round hash_w].
  split; [apply add32_w|]. split; [exact A|]. split; [apply rotl_w; [lia|exact B]|]. tauto.
Qed.
Lemma sum32 x f e w k : u32 (u32 (u32 (u32 (x + f) + e) + w) + k) = add32 x (add32 f (add32 e (add32 k w))).
Proof.
  unfold u32, add32. set (M := 2 ^ 32). assert (N : M <> 0) by discriminate. clearbody M.
  rewrite (Z.add_mod_idemp_r e) by exact N. rewrite (Z.add_mod_idemp_r f) by exact N. rewrite (Z.add_mod_idemp_r x) by exact N.
  rewrite (Z.add_mod_idemp_l (x + f)) by exact N. rewrite (Z.add_mod_idemp_l (x + f + e)) by exact N.
  rewrite (Z.add_mod_idemp_l (x + f + e + w)) by exact N. f_equal. ring.
Qed.
Lemma rounds_spec blk : forall n t a b c d e, hash_w (a, b, c, d, e) ->
  rounds (map (schedule blk) (seq t n)) t a b c d e = fold_left (round blk) (seq t n) (a, b, c, d, e).
Proof.
  induction n as [|n IH]; intros t a b c d e W; [reflexivity|].
  cbn [seq map fold_left rounds].
  pose proof (round_w blk _ t W) as W'. destruct W as (A & B & C & D & E).
  set (q := if (t <? 20)%nat then _ else _).
  assert (Q : q = (K_t t, f_t t b c d)).
  { unfold q, K_t, f_t, parity.
    destruct (Nat.ltb_spec t 20), (Nat.leb_spec t 19); try lia; [rewrite code_ch by assumption; reflexivity|].
    destruct (Nat.ltb_spec t 40), (Nat.leb_spec t 39); try lia; [rewrite Z.lxor_assoc; reflexivity|].
    destruct (Nat.ltb_spec t 60), (Nat.leb_spec t 59); try lia; [rewrite code_maj; reflexivity|].
    rewrite Z.lxor_assoc; reflexivity. }
  rewrite Q. cbv zeta. rewrite sum32. rewrite (lrot_rotl a 5), (lrot_rotl b 30) by (lia || assumption).
  rewrite IH; [reflexivity|exact W'].
Qed.

Lemma compress_w h blk : hash_w (compress h blk).
Proof.
  unfold compress. destruct h as [[[[h0 h1] h2] h3] h4].
  destruct (fold_left _ _ _) as [[[[a b] c] d] e]. repeat split; try apply add32_w.
Qed.

Definition sh_hash (s : sha1) : hash := (H0 s, H1 s, H2 s, H3 s, H4 s).
Lemma process_spec s : bytes_ok (sh_bytes s) -> (length (sh_bytes s) = 64)%nat -> hash_w (sh_hash s) ->
  sh_hash (process s) = compress (sh_hash s) (sh_bytes s) /\ sh_bytes (process s) = sh_bytes s /\
  unprocessed (process s) = 0%nat /\ sh_size (process s) = sh_size s.
Proof.
  intros OK L W. unfold process.
  replace (map (block_word (sh_bytes s)) (seq 0 16)) with (map (schedule (sh_bytes s)) (seq 0 16)).
  2:{ apply map_ext_in. intros t T. apply in_seq in T. rewrite sched_low by lia. symmetry. apply block_word_spec; (assumption || lia). }
  rewrite expand_spec by (assumption || lia). change (16 + 64)%nat with 80%nat. cbv zeta.
  rewrite rounds_spec by exact W. unfold compress, sh_hash.
  destruct (fold_left _ _ _) as [[[[a b] c] d] e].
  unfold u32, add32. cbn [H0 H1 H2 H3 H4 sh_bytes unprocessed sh_size].
  split; [|auto]. now rewrite (Z.add_comm a), (Z.add_comm b), (Z.add_comm c), (Z.add_comm d), (Z.add_comm e).
Qed.

Lemma seq_shift_add q k n : map (Nat.add q) (seq k n) = seq (q + k) n.
Proof. revert k. induction n as [|n IH]; intros k; [reflexivity|]. cbn [seq map]. rewrite IH. f_equal. f_equal. lia. Qed.
(** what the state holds after the bytes [m] *)
Definition full (m : list Z) : nat := (64 * (length m / 64))%nat.
Record rep (s : sha1) (m : list Z) : Prop := mkRep {
  rep_hash : sh_hash s = hash_blocks m;
  rep_len : (length (sh_bytes s) = 64)%nat;
  rep_un : unprocessed s = (length m mod 64)%nat;
  rep_rest : firstn (unprocessed s) (sh_bytes s) = skipn (full m) m;
  rep_size : sh_size s = Z.of_nat (length m) mod 2 ^ 32 }.

Lemma hash_blocks_w m : hash_w (hash_blocks m).
Proof.
  unfold hash_blocks. rewrite <- fold_left_rev_right. destruct (rev (blocks m)) as [|x l]; cbn [fold_right].
  - cbn. unfold w32. lia.
  - apply compress_w.
Qed.

Lemma rep_new junk : (length junk = 64)%nat -> rep (sha1_new junk) [].
Proof. intros L. split; auto. Qed.

Lemma blocks_app m d : (length m mod 64 = 0)%nat -> blocks (m ++ d) = blocks m ++ blocks d.
Proof.
  intros M. unfold blocks. rewrite app_length.
  assert (E : (length m = 64 * (length m / 64))%nat) by (pose proof (Nat.div_mod_eq (length m) 64); lia).
  set (q := (length m / 64)%nat) in *.
  replace ((length m + length d) / 64)%nat with (q + length d / 64)%nat.
  2:{ rewrite E. rewrite Nat.mul_comm, Nat.div_add_l by lia. reflexivity. }
  rewrite seq_app, map_app. f_equal.
  - apply map_ext_in. intros i I. apply in_seq in I.
    rewrite skipn_app, firstn_app, skipn_length.
    replace (64 - (length m - 64 * i))%nat with 0%nat by lia. rewrite firstn_O, app_nil_r. reflexivity.
  - rewrite Nat.add_0_l. rewrite <- (Nat.add_0_r q) at 1. clearbody q.
    rewrite <- seq_shift_add. rewrite map_map. apply map_ext. intros i.
    rewrite skipn_app. rewrite skipn_all2 by lia. cbn [app]. f_equal. f_equal. lia.
Qed.

Lemma full_le m : (full m <= length m)%nat /\ (length m - full m = length m mod 64)%nat.
Proof. unfold full. pose proof (Nat.div_mod_eq (length m) 64). lia. Qed.

Lemma hash_blocks_app m d : (length m mod 64 = 0)%nat -> hash_blocks (m ++ d) = fold_left compress (blocks d) (hash_blocks m).
Proof. intros M. unfold hash_blocks. rewrite blocks_app by exact M. apply fold_left_app. Qed.

Lemma blocks_short d : (length d < 64)%nat -> blocks d = [].
Proof. intros L. unfold blocks. rewrite Nat.div_small by exact L. reflexivity. Qed.
Lemma blocks_one d : (length d = 64)%nat -> blocks d = [d].
Proof. intros L. unfold blocks. rewrite L. change (64 / 64)%nat with 1%nat. cbn [seq map]. rewrite Nat.mul_0_r. cbn [skipn]. rewrite <- L. now rewrite firstn_all. Qed.

Lemma split_full m : m = firstn (full m) m ++ skipn (full m) m /\ (length (firstn (full m) m) mod 64 = 0)%nat /\ (length (firstn (full m) m) = full m)%nat.
Proof.
  split; [symmetry; apply firstn_skipn|]. pose proof (full_le m). rewrite firstn_length, Nat.min_l by lia.
  split; [|reflexivity]. unfold full. rewrite Nat.mul_comm. apply Nat.mod_mul. lia.
Qed.

(** one turn of the copying loop: fewer bytes than complete a block, or exactly as many *)
Definition with_bytes (s : sha1) b n := mkSha (H0 s) (H1 s) (H2 s) (H3 s) (H4 s) b n (sh_size s).

(** [rep] without the size *)
Record repb (s : sha1) (m : list Z) : Prop := mkRepb {
  rb_hash : sh_hash s = hash_blocks m;
  rb_len : (length (sh_bytes s) = 64)%nat;
  rb_un : unprocessed s = (length m mod 64)%nat;
  rb_rest : firstn (unprocessed s) (sh_bytes s) = skipn (full m) m }.

Lemma turn s m d : repb s m -> bytes_ok m -> bytes_ok d -> (unprocessed s + length d <= 64)%nat ->
  let s1 := with_bytes s (firstn (unprocessed s) (sh_bytes s) ++ d ++ skipn (unprocessed s + length d) (sh_bytes s)) (unprocessed s + length d) in
  repb (if (unprocessed s1 =? 64)%nat then process s1 else s1) (m ++ d) /\
  sh_size (if (unprocessed s1 =? 64)%nat then process s1 else s1) = sh_size s.
Proof.
  intros R OKm OKd LE s1.
  destruct R as [RH RL RU RR].
  assert (LU : (unprocessed s < 64)%nat) by (rewrite RU; apply Nat.mod_upper_bound; lia).
  assert (LB : (length (sh_bytes s1) = 64)%nat).
  { unfold s1. cbn [sh_bytes with_bytes]. rewrite !app_length, firstn_length, skipn_length. lia. }
  assert (H1' : sh_hash s1 = hash_blocks m) by exact RH.
  destruct (split_full m) as (SP & SM & SL). destruct (full_le m) as [FL FM].
  assert (LR : (length (skipn (full m) m) = unprocessed s)%nat) by (rewrite skipn_length; lia).
  assert (HF : hash_blocks m = hash_blocks (firstn (full m) m)).
  { rewrite SP at 1. rewrite hash_blocks_app by exact SM. rewrite blocks_short by lia. reflexivity. }
  assert (UN : unprocessed s1 = (unprocessed s + length d)%nat) by reflexivity.
  rewrite UN. destruct (Nat.eqb_spec (unprocessed s + length d) 64) as [F|F].
  - assert (B : sh_bytes s1 = skipn (full m) m ++ d).
    { unfold s1. cbn [sh_bytes with_bytes]. rewrite RR. rewrite (skipn_all2 (sh_bytes s)) by lia. now rewrite app_nil_r. }
    assert (OKb : bytes_ok (sh_bytes s1)).
    { rewrite B. apply Forall_app. split; [|exact OKd]. rewrite SP in OKm. now apply Forall_app in OKm. }
    destruct (process_spec s1 OKb LB) as (PH & PB & PU & PS).
    { rewrite H1'. apply hash_blocks_w. }
    split; [|exact PS]. split.
    + rewrite PH, H1', HF. replace (m ++ d) with (firstn (full m) m ++ (skipn (full m) m ++ d)) by (rewrite app_assoc, firstn_skipn; reflexivity). rewrite hash_blocks_app by exact SM.
      rewrite blocks_one. 2:{ rewrite app_length. lia. }
      rewrite B. reflexivity.
    + now rewrite PB.
    + rewrite PU. rewrite app_length. unfold full in FM, FL.
      replace (length m + length d)%nat with ((length m / 64 + 1) * 64)%nat by lia. rewrite Nat.mod_mul by lia. reflexivity.
    + rewrite PU. cbn [firstn]. rewrite skipn_all2; [reflexivity|].
      assert (E : length (m ++ d) = ((length m / 64 + 1) * 64)%nat) by (rewrite app_length; unfold full in FM, FL; lia).
      unfold full. rewrite E. rewrite Nat.div_mul by lia. lia.
  - assert (DV : (length (m ++ d) / 64 = length m / 64)%nat).
    { rewrite app_length. symmetry. apply Nat.div_unique with (r := (unprocessed s + length d)%nat); [lia|]. unfold full in FM, FL. lia. }
    assert (MD : (length (m ++ d) mod 64 = unprocessed s + length d)%nat).
    { symmetry. apply Nat.mod_unique with (q := (length m / 64)%nat); [lia|]. rewrite app_length. unfold full in FM, FL. lia. }
    split; [|reflexivity]. split.
    + rewrite H1', HF. replace (m ++ d) with (firstn (full m) m ++ (skipn (full m) m ++ d)) by (rewrite app_assoc, firstn_skipn; reflexivity). rewrite hash_blocks_app by exact SM.
      rewrite blocks_short by (rewrite app_length; lia). reflexivity.
    + exact LB.
    + rewrite UN. now rewrite MD.
    + rewrite UN. unfold s1. cbn [sh_bytes with_bytes]. rewrite app_assoc. rewrite firstn_app.
      rewrite app_length, firstn_length, Nat.min_l by lia.
      rewrite Nat.sub_diag, firstn_O, app_nil_r.
      rewrite firstn_all2 by (rewrite app_length, firstn_length; lia).
      rewrite RR. unfold full at 2. rewrite DV. fold (full m). rewrite skipn_app.
      replace (full m - length m)%nat with 0%nat by lia. reflexivity.
Qed.

Lemma add_loop_ok : forall fuel s m d, repb s m -> bytes_ok m -> bytes_ok d -> (length d <= fuel)%nat ->
  exists s', add_loop fuel s d = Ok s' /\ repb s' (m ++ d) /\ sh_size s' = sh_size s.
Proof.
  induction fuel as [|fuel IH]; intros s m d R OKm OKd F.
  - destruct d; [|cbn in F; lia]. exists s. rewrite app_nil_r. auto.
  - destruct d as [|x d']. { exists s. rewrite app_nil_r. auto. }
    cbn [add_loop]. set (d := x :: d') in *.
    assert (LU : (unprocessed s < 64)%nat) by (rewrite (rb_un _ _ R); apply Nat.mod_upper_bound; lia).
    cbv zeta. set (tc := if (length d <? 64 - unprocessed s)%nat then _ else _).
    assert (T : (1 <= tc <= length d)%nat /\ (unprocessed s + tc <= 64)%nat).
    { unfold tc. destruct (Nat.ltb_spec (length d) (64 - unprocessed s)); subst d; cbn [List.length] in *; lia. }
    clearbody tc. destruct T as [T1 T2].
    assert (LF : length (firstn tc d) = tc) by (rewrite firstn_length; lia).
    assert (OKf : bytes_ok (firstn tc d) /\ bytes_ok (skipn tc d)).
    { rewrite <- (firstn_skipn tc d) in OKd. now apply Forall_app in OKd. }
    unfold copy_in. rewrite LF. rewrite (rb_len _ _ R). rewrite (proj2 (Nat.ltb_ge 64 (unprocessed s + tc)) T2).
    cbn [obind].
    pose proof (turn s m (firstn tc d) R OKm (proj1 OKf)) as TU. rewrite LF in TU. specialize (TU T2). cbv zeta in TU.
    unfold with_bytes in TU. destruct TU as [TR TS].
    destruct (IH _ (m ++ firstn tc d) (skipn tc d) TR) as (s' & E & R' & S').
    { apply Forall_app. split; [exact OKm|apply OKf]. }
    { apply OKf. }
    { rewrite skipn_length. cbn [List.length] in F. lia. }
    exists s'. split; [exact E|]. rewrite <- app_assoc, firstn_skipn in R'. split; [exact R'|]. now rewrite S', TS.
Qed.

Lemma add_bytes_ok s m d : rep s m -> bytes_ok m -> bytes_ok d ->
  exists s', add_bytes s d = Ok s' /\ rep s' (m ++ d).
Proof.
  intros [A B C D E] OKm OKd. unfold add_bytes.
  destruct (add_loop_ok (length d) (mkSha (H0 s) (H1 s) (H2 s) (H3 s) (H4 s) (sh_bytes s) (unprocessed s) (u32 (sh_size s + Z.of_nat (length d)))) m d) as (s' & L & R & Sz).
  { split; auto. } { exact OKm. } { exact OKd. } { lia. }
  exists s'. split; [exact L|]. destruct R. split; auto.
  rewrite Sz. cbn [sh_size]. rewrite E. unfold u32. rewrite app_length, Nat2Z.inj_add. apply Z.add_mod_idemp_l. discriminate.
Qed.
Lemma add_all_ok : forall l s m, rep s m -> bytes_ok m -> Forall bytes_ok l ->
  exists s', add_all s l = Ok s' /\ rep s' (m ++ List.concat l) /\ bytes_ok (m ++ List.concat l).
Proof.
  induction l as [|d r IH]; intros s m R OKm OKl.
  - exists s. cbn [List.concat add_all]. rewrite app_nil_r. auto.
  - apply Forall_inv in OKl as OKd. apply Forall_inv_tail in OKl.
    destruct (add_bytes_ok s m d R OKm OKd) as (s1 & E1 & R1).
    destruct (IH s1 (m ++ d) R1) as (s2 & E2 & R2 & O2). { apply Forall_app; auto. } { exact OKl. }
    exists s2. cbn [add_all List.concat]. rewrite E1. cbn [obind]. rewrite app_assoc. auto.
Qed.

Lemma store_be num : store_big_endian num = be_bytes 4 num.
Proof.
  unfold store_big_endian, be_bytes. cbn [seq map Nat.sub].
  rewrite !Z.shiftr_div_pow2 by lia. change (256 ^ Z.of_nat 3) with (2 ^ 24). change (256 ^ Z.of_nat 2) with (2 ^ 16).
  change (256 ^ Z.of_nat 1) with (2 ^ 8). change (256 ^ Z.of_nat 0) with 1. now rewrite Z.div_1_r.
Qed.
(** the two words of the bit length *)
Lemma high_byte n k : 0 <= k -> n / 2 ^ 29 / 2 ^ k mod 2 ^ 8 = 8 * n / 2 ^ (k + 32) mod 2 ^ 8.
Proof.
  intros K. apply Z.bits_inj'. intros i I.
  destruct (Z_lt_ge_dec i 8) as [J|J]; [|rewrite !Z.mod_pow2_bits_high by lia; reflexivity].
  rewrite !Z.mod_pow2_bits_low by lia. rewrite <- !Z.shiftr_div_pow2 by lia. rewrite !Z.shiftr_spec by lia.
  change (8 * n) with (2 ^ 3 * n). rewrite Z.mul_comm, Z.mul_pow2_bits by lia. f_equal. lia.
Qed.
Lemma low_byte n k : 0 <= k -> k + 8 <= 32 -> (n * 2 ^ 3) mod 2 ^ 32 / 2 ^ k mod 2 ^ 8 = 8 * n / 2 ^ k mod 2 ^ 8.
Proof.
  intros K L. apply Z.bits_inj'. intros i I.
  destruct (Z_lt_ge_dec i 8) as [J|J]; [|rewrite !Z.mod_pow2_bits_high by lia; reflexivity].
  rewrite !(Z.mod_pow2_bits_low _ 8) by lia. rewrite <- !Z.shiftr_div_pow2 by lia. rewrite !Z.shiftr_spec by lia.
  rewrite Z.mod_pow2_bits_low by lia. change (8 * n) with (2 ^ 3 * n). now rewrite (Z.mul_comm (2 ^ 3)).
Qed.
Lemma length_bytes n : 0 <= n < 2 ^ 32 ->
  store_big_endian (Z.shiftr n 29) ++ store_big_endian (u32 (Z.shiftl n 3)) = be_bytes 8 (8 * n).
Proof.
  intros N. rewrite !store_be. unfold be_bytes. cbn [seq map Nat.sub app].
  rewrite Z.shiftr_div_pow2, Z.shiftl_mul_pow2 by lia. unfold u32.
  change (256 ^ Z.of_nat 7) with (2 ^ (24 + 32)). change (256 ^ Z.of_nat 6) with (2 ^ (16 + 32)).
  change (256 ^ Z.of_nat 5) with (2 ^ (8 + 32)). change (256 ^ Z.of_nat 4) with (2 ^ (0 + 32)).
  change (256 ^ Z.of_nat 3) with (2 ^ 24). change (256 ^ Z.of_nat 2) with (2 ^ 16). change (256 ^ Z.of_nat 1) with (2 ^ 8). change (256 ^ Z.of_nat 0) with (2 ^ 0).
  change 256 with (2 ^ 8).
  rewrite !high_byte, !low_byte by lia. reflexivity.
Qed.
Lemma be_bytes_ok n x : bytes_ok (be_bytes n x).
Proof. unfold be_bytes. apply Forall_forall. intros y Y. apply in_map_iff in Y. destruct Y as (i & <- & _). unfold is_byte. pose proof (Z.mod_pos_bound (x / 256 ^ Z.of_nat (n - 1 - i)) 256). lia. Qed.
Lemma be_bytes_len n x : length (be_bytes n x) = n.
Proof. unfold be_bytes. now rewrite map_length, seq_length. Qed.
Lemma repeat0_ok n : bytes_ok (repeat 0 n).
Proof. apply Forall_forall. intros x X. apply repeat_spec in X. subst. unfold is_byte. lia. Qed.

Lemma footer_ok z n : (z <= 56)%nat -> 0 <= n < 2 ^ 32 ->
  (let! footer := copy_in (repeat 0 64) z (store_big_endian (Z.shiftr n 29)) in
   let! footer := copy_in footer (z + 4) (store_big_endian (u32 (Z.shiftl n 3))) in
   Ok (firstn (z + 8) footer)) = Ok (repeat 0 z ++ be_bytes 8 (8 * n)).
Proof.
  intros Z8 N. rewrite <- length_bytes by exact N.
  set (a := store_big_endian (Z.shiftr n 29)). set (b := store_big_endian (u32 (Z.shiftl n 3))).
  assert (LA : length a = 4%nat) by reflexivity. assert (LB : length b = 4%nat) by reflexivity. clearbody a b.
  unfold copy_in. rewrite LA, LB, repeat_length. rewrite (proj2 (Nat.ltb_ge 64 (z + 4))) by lia. cbn [obind].
  replace (firstn z (repeat 0 64)) with (repeat 0 z).
  2:{ replace 64%nat with (z + (64 - z))%nat by lia. rewrite repeat_app, firstn_app, repeat_length, Nat.sub_diag, firstn_O, app_nil_r. rewrite firstn_all2; [reflexivity|rewrite repeat_length; lia]. }
  rewrite !app_length, repeat_length, skipn_length, repeat_length, LA.
  rewrite (proj2 (Nat.ltb_ge _ (z + 4 + 4))) by lia. cbn [obind]. f_equal.
  rewrite !app_assoc.
  rewrite (firstn_app (z + 4)). rewrite app_length, repeat_length, LA. rewrite Nat.sub_diag, firstn_O, app_nil_r.
  rewrite (firstn_all2 (n := z + 4)) by (rewrite app_length, repeat_length; lia).
  rewrite firstn_app. rewrite !app_length, repeat_length, LA, LB.
  replace (z + 8 - (z + 4 + 4))%nat with 0%nat by lia. rewrite firstn_O, app_nil_r.
  rewrite firstn_all2 by (rewrite !app_length, repeat_length; lia). reflexivity.
Qed.

Lemma get_digest_ok s m : rep s m -> bytes_ok m ->
  exists s', get_digest s = Ok (digest_of (hash_blocks (padded_with (8 * (Z.of_nat (length m) mod 2 ^ 32)) m)), s') /\
    rep s' (padded_with (8 * (Z.of_nat (length m) mod 2 ^ 32)) m).
Proof.
  intros R OKm. unfold get_digest.
  destruct (add_bytes_ok s m [128] R OKm) as (s1 & E1 & R1). { constructor; [unfold is_byte; lia|constructor]. }
  rewrite E1. cbn [obind]. rewrite (rep_size _ _ R).
  set (n := Z.of_nat (length m) mod 2 ^ 32). assert (N : 0 <= n < 2 ^ 32) by (apply Z.mod_pos_bound; reflexivity).
  assert (OK1 : bytes_ok (m ++ [128])). { apply Forall_app. split; [exact OKm|]. constructor; [unfold is_byte; lia|constructor]. }
  pose proof (rep_un _ _ R1) as U1. rewrite app_length in U1. cbn [List.length] in U1.
  assert (S2 : exists s2 k, (if (56 <? unprocessed s1)%nat then add_bytes s1 (repeat 0 (64 - unprocessed s1)) else Ok s1) = Ok s2 /\
     rep s2 (m ++ [128] ++ repeat 0 k) /\ (unprocessed s2 <= 56)%nat /\ (k + (56 - unprocessed s2) = pad_zeros m)%nat).
  { assert (PZ : forall u q, (length m + 1 = 64 * q + u)%nat -> (u < 64)%nat -> pad_zeros m = if (56 <? u)%nat then (120 - u)%nat else (56 - u)%nat).
    { intros u q EQ LU. unfold pad_zeros. destruct (Nat.ltb_spec 56 u).
      - rewrite <- (Z.mod_unique (55 - Z.of_nat (length m)) 64 (- Z.of_nat q - 1 + 1 - 1) (120 - Z.of_nat u)); lia.
      - rewrite <- (Z.mod_unique (55 - Z.of_nat (length m)) 64 (- Z.of_nat q) (56 - Z.of_nat u)); lia. }
    specialize (PZ (unprocessed s1) ((length m + 1) / 64)%nat).
    rewrite U1 in PZ at 1. specialize (PZ (Nat.div_mod_eq _ _)).
    assert (LU : (unprocessed s1 < 64)%nat) by (rewrite U1; apply Nat.mod_upper_bound; lia). specialize (PZ LU). rewrite PZ.
    destruct (Nat.ltb_spec 56 (unprocessed s1)).
    - destruct (add_bytes_ok s1 _ (repeat 0 (64 - unprocessed s1)) R1 OK1 (repeat0_ok _)) as (s2 & E2 & R2).
      exists s2, (64 - unprocessed s1)%nat. split; [exact E2|]. rewrite <- app_assoc in R2. split; [exact R2|].
      assert (U2 : unprocessed s2 = 0%nat).
      { rewrite (rep_un _ _ R2), !app_length, repeat_length. cbn [List.length].
        pose proof (Nat.div_mod_eq (length m + 1) 64) as DM. rewrite <- U1 in DM.
        replace (length m + (1 + (64 - unprocessed s1)))%nat with (((length m + 1) / 64 + 1) * 64)%nat by lia.
        apply Nat.mod_mul. lia. }
      rewrite U2. lia.
    - exists s1, 0%nat. cbn [repeat]. rewrite app_nil_r. repeat split; auto; try apply R1. }
  destruct S2 as (s2 & k & E2 & R2 & U2 & K2). rewrite E2. cbn [obind].
  pose proof (footer_ok (56 - unprocessed s2) n ltac:(lia) N) as FO.
  destruct (copy_in (repeat 0 64) _ _) as [f1| |]; [|discriminate FO..]. cbn [obind] in FO |- *.
  destruct (copy_in f1 _ _) as [f2| |]; [|discriminate FO..]. cbn [obind] in FO |- *.
  assert (OI : forall A (x y : A), Ok x = Ok y -> x = y) by (intros A x y Q; now injection Q).
  apply OI in FO. rewrite FO.
  destruct (add_bytes_ok s2 _ (repeat 0 (56 - unprocessed s2) ++ be_bytes 8 (8 * n)) R2) as (s3 & E3 & R3).
  { apply Forall_app. split; [exact OKm|]. apply Forall_app. split; [|apply repeat0_ok]. constructor; [unfold is_byte; lia|constructor]. }
  { apply Forall_app. split; [apply repeat0_ok|apply be_bytes_ok]. }
  rewrite E3. cbn [obind]. exists s3.
  assert (PW : (m ++ [128] ++ repeat 0 k) ++ repeat 0 (56 - unprocessed s2) ++ be_bytes 8 (8 * n) = padded_with (8 * n) m).
  { unfold padded_with. rewrite <- !app_assoc. f_equal. cbn [app]. f_equal. rewrite app_assoc, <- repeat_app, K2. reflexivity. }
  rewrite PW in R3. split; [|exact R3]. rewrite !store_be. rewrite <- (rep_hash _ _ R3). reflexivity.
Qed.

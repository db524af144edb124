(** Exact behaviour of mixed, filtered and truncated reading. *)
From Coq Require Import ZArith List Bool Lia String.
From Coq Require Import ZifyBool ZifyNat.
Import ListNotations.
From Verif Require Import Outcome Bytes Float64 Float64_Proofs CStr Vlr_Model Schema_Model Schema_Spec Schema_Api Schema_Proofs
  Header_Model Point_Model Stream_Model Stream_Proofs Reader_Model IO_Spec Reader_Proofs Reader_Vlrs Reader_Schema Reader_Open
  Reader_Spec Reader_Api Reader_Hist.
Local Open Scope Z_scope.
Local Notation length := List.length (only parsing).

Definition eof_at (F : list Z) (p : nat) : istream := mkIs F p true true.

(** reading at the end of the file leaves the old bytes *)
Lemma read_record_eof F d n : length d = n -> (0 < n)%nat ->
  read_record (at_pos F (length F)) d n = Ok (d, eof_at F (length F)).
Proof.
  intros Hd Hn. unfold read_record. destruct d as [|x d]; [cbn in Hd; lia|]. cbn [at_pos is_fail]. fold (at_pos F (length F)).
  unfold is_read. cbn [at_pos is_eof is_fail is_pos is_data orb]. rewrite skipn_all, firstn_nil. cbn [List.length].
  destruct (Nat.ltb_spec 0 n); [|lia]. cbn [patch app skipn List.length]. rewrite Nat.add_0_r. reflexivity.
Qed.
Lemma read_record_failed s d n : is_fail s = true -> (0 < length d)%nat -> read_record s d n = Throw ERuntime.
Proof. intros Hf Hd. unfold read_record. destruct d; [cbn in Hd; lia|]. now rewrite Hf. Qed.

Lemma exact_complete F : exact_end F -> 0 < f_reclen F -> complete F.
Proof. intros HE HR. split; [exact HR|]. intros Hn. rewrite HE by exact Hn. lia. Qed.

(** position of record [j] *)
Definition rpos (F : list Z) (j : Z) : nat := Z.to_nat (f_doff F + j * f_reclen F).

Lemma rpos_next F j : bytes_ok F -> 0 <= j -> (rpos F j + Z.to_nat (f_reclen F))%nat = rpos F (j + 1).
Proof.
  intros HB Hj. destruct (fields_nonneg F HB) as (D0 & N0 & L0).
  assert (0 <= j * f_reclen F) by (apply Z.mul_nonneg_nonneg; lia). unfold rpos.
  replace ((j + 1) * f_reclen F) with (j * f_reclen F + f_reclen F) by lia. lia.
Qed.
Lemma rpos_in F j : bytes_ok F -> complete F -> 0 <= j < f_npts F -> (rpos F j + Z.to_nat (f_reclen F) <= length F)%nat.
Proof.
  intros HB (HC1 & HC2) Hj. specialize (HC2 ltac:(lia)). destruct (fields_nonneg F HB) as (D0 & N0 & L0).
  assert (M : (j + 1) * f_reclen F <= f_npts F * f_reclen F) by (apply Z.mul_le_mono_nonneg_r; lia).
  assert (M0 : 0 <= j * f_reclen F) by (apply Z.mul_nonneg_nonneg; lia). unfold rpos. lia.
Qed.
Lemma rpos_end F : bytes_ok F -> exact_end F -> 0 < f_npts F -> rpos F (f_npts F) = length F.
Proof. intros HB HE Hn. unfold rpos. rewrite HE by assumption. lia. Qed.

(** one counted read at record [j] *)
Lemma read_counted_at F r j : las_file F -> complete F -> rinv F r -> 0 <= j < f_npts F -> r_is r = at_pos F (rpos F j) ->
  exists r1, read_counted r = (r1, Ok tt) /\ rinv F r1 /\ r_data r1 = file_record F j /\ r_is r1 = at_pos F (rpos F (j + 1)) /\
    r_current r1 = (r_current r + 1) mod 2 ^ 32 /\ r_hdr r1 = r_hdr r.
Proof.
  intros HF HC Hi Hj Hs. pose proof HF as (HB & _). pose proof Hi as (A & B & C & D & E & G & H & I & J).
  destruct (rinv_pos_recsize F r HC Hi) as (Hp & Hl). unfold read_counted. rewrite Hs, G.
  rewrite read_record_full; [|rewrite H; reflexivity|rewrite <- G; exact Hp|apply rpos_in; assumption].
  rewrite rpos_next by (assumption || lia).
  eexists. split; [reflexivity|]. split; [|split; [reflexivity|split; [reflexivity|split; reflexivity]]].
  unfold rinv, rd_read. cbn [r_hdr r_is r_size r_recsize r_data r_current at_pos is_data is_fail is_eof].
  split; [exact A|]. split; [exact B|]. split; [reflexivity|]. split; [discriminate|]. split; [exact E|]. split; [exact G|].
  split; [apply slice_length; apply rpos_in; assumption|]. split; [apply slice_bytes, HB|]. apply Z.mod_pos_bound. lia.
Qed.
Lemma read_counted_end F r : las_file F -> 0 < f_reclen F -> rinv F r -> r_is r = at_pos F (length F) ->
  exists r1, read_counted r = (r1, Ok tt) /\ rinv F r1 /\ r_data r1 = r_data r /\ r_is r1 = eof_at F (length F) /\
    r_current r1 = (r_current r + 1) mod 2 ^ 32 /\ r_hdr r1 = r_hdr r.
Proof.
  intros HF HR Hi Hs. pose proof HF as (HB & _). pose proof Hi as (A & B & C & D & E & G & H & I & J).
  unfold read_counted. rewrite Hs, G. rewrite read_record_eof; [|exact H|lia].
  eexists. split; [reflexivity|]. split; [|split; [reflexivity|split; [reflexivity|split; reflexivity]]].
  unfold rinv, rd_read. cbn [r_hdr r_is r_size r_recsize r_data r_current eof_at is_data is_fail is_eof].
  split; [exact A|]. split; [exact B|]. split; [reflexivity|]. split; [reflexivity|]. split; [exact E|]. split; [exact G|].
  split; [exact H|]. split; [exact I|]. apply Z.mod_pos_bound. lia.
Qed.
Lemma read_counted_failed F r : rinv F r -> 0 < f_reclen F -> is_fail (r_is r) = true -> read_counted r = (r, Throw EOutOfRange).
Proof.
  intros (A & B & C & D & E & G & H & I & J) HR Hf. unfold read_counted. rewrite read_record_failed; [reflexivity|exact Hf|lia].
Qed.

(** ** the two-cursor machine *)
Definition rtwo (F : list Z) (r : reader) (c : Z) (s : option Z) : Prop :=
  rinv F r /\ r_current r = c /\ 0 <= c <= f_npts F /\
  (0 < c -> match s with Some j => 0 <= j <= f_npts F /\ r_is r = at_pos F (rpos F j) | None => is_fail (r_is r) = true end).

Lemma rtwo_step xml F r c s o : las_file F -> no_schema_vlr F -> finite_scaling F -> 0 < f_reclen F -> exact_end F -> rop_ok o ->
  rtwo F r c s ->
  exists r1, rop_run xml r o = (r1, Ok (snd (two_step F (c, s, r_data r) o))) /\
    (let '(c1, s1, p1) := fst (two_step F (c, s, r_data r) o) in rtwo F r1 c1 s1 /\ r_data r1 = p1).
Proof.
  intros HF Hns Hfin HR HE Ho (Hi & Ec & Hc & Hs). pose proof HF as (HB & _). pose proof (exact_complete F HE HR) as HC.
  destruct (fields_nonneg F HB) as (D0 & N0 & L0).
  pose proof Hi as (A & B & C & D & E & G & H & I & J).
  destruct o as [|n|n|]; cbn [rop_run two_step rop_ok] in *.
  - unfold reader_next, impl_next.
    set (r0 := if r_current r =? 0 then rd_stream r (is_seek (is_clear (r_is r)) (h_doff (r_hdr r))) else r).
    set (s0 := if c =? 0 then Some 0 else s).
    assert (I0 : rinv F r0 /\ r_current r0 = c /\ r_data r0 = r_data r /\
      match s0 with Some j => 0 <= j <= f_npts F /\ r_is r0 = at_pos F (rpos F j) | None => is_fail (r_is r0) = true end).
    { unfold r0, s0. rewrite Ec. destruct (Z.eqb_spec c 0) as [Z0|Z0].
      - rewrite (shows_doff F _ A), is_seek_clean by lia. rewrite C.
        split; [apply rinv_stream; [exact Hi|reflexivity|discriminate]|]. unfold rd_stream. cbn [r_current r_data r_is].
        split; [exact Ec|]. split; [reflexivity|]. split; [lia|]. unfold rpos. rewrite Z.mul_0_l, Z.add_0_r. reflexivity.
      - split; [exact Hi|]. split; [exact Ec|]. split; [reflexivity|]. apply Hs. lia. }
    destruct I0 as (I0 & Ec0 & Ed0 & S0). pose proof I0 as (A0 & B0 & C0 & D0' & E0 & G0 & H0 & Ib0 & J0).
    rewrite E0, Ec0. destruct (Z.leb_spec (f_npts F) c) as [L|L]; destruct (Z.ltb_spec c (f_npts F)) as [L2|L2]; try lia.
    { eexists. split; [reflexivity|]. cbn [fst snd]. split; [|exact Ed0]. split; [exact I0|]. split; [exact Ec0|]. split; [lia|].
      intros Hc0. unfold s0 in S0. destruct (Z.eqb_spec c 0); [lia|]. exact S0. }
    destruct s0 as [j|] eqn:Es0.
    + destruct S0 as (Hj & S0). destruct (Z.ltb_spec j (f_npts F)) as [Lj|Lj].
      * destruct (read_counted_at F r0 j HF HC I0 ltac:(lia) S0) as (r1 & -> & I1 & Dt & S1 & C1 & _).
        unfold filtered_part, no_filter, no_transform. cbn [p_data r_point fst snd].
        eexists. split; [reflexivity|]. unfold rd_data. cbn [r_data]. split; [|exact Dt].
        split; [exact I1|]. cbn [r_current r_is]. rewrite C1, Ec0, Z.mod_small by lia. split; [reflexivity|]. split; [lia|].
        intros _. split; [lia|exact S1].
      * assert (j = f_npts F) by lia. subst j. rewrite rpos_end in S0 by (assumption || lia).
        destruct (read_counted_end F r0 HF HR I0 S0) as (r1 & -> & I1 & Dt & S1 & C1 & _).
        unfold filtered_part, no_filter, no_transform. cbn [p_data r_point fst snd].
        eexists. split; [reflexivity|]. unfold rd_data. cbn [r_data]. split; [|congruence].
        split; [exact I1|]. cbn [r_current r_is]. rewrite C1, Ec0, Z.mod_small by lia. split; [reflexivity|]. split; [lia|].
        intros _. rewrite S1. reflexivity.
    + rewrite (read_counted_failed F r0 I0 HR S0). eexists. split; [reflexivity|]. cbn [fst snd]. split; [|exact Ed0].
      split; [exact I0|]. split; [exact Ec0|]. split; [lia|]. intros _. exact S0.
  - destruct (at_exact F r n HF HC Hi Ho) as (r1 & E1 & Dt & Same). rewrite E1.
    destruct (Z.ltb_spec n (f_npts F)) as [L|L]; cbn [ans of_bool].
    + eexists. split; [reflexivity|]. cbn [fst snd]. split; [|exact Dt].
      unfold reader_at in E1. rewrite (shows_npts F _ A) in E1. destruct (Z.leb_spec (f_npts F) n); [lia|].
      unfold impl_at in E1. rewrite E in E1. destruct (Z.eqb_spec (f_npts F) n); [lia|]. destruct (Z.ltb_spec (f_npts F) n); [lia|].
      rewrite (shows_reclen F _ A), (shows_doff F _ A), is_seek_clean, C in E1 by nia.
      rewrite (Z.add_comm (n * f_reclen F)) in E1. fold (rpos F n) in E1.
      destruct (rinv_pos_recsize F r HC Hi) as (Hp & Hl).
      rewrite read_record_full in E1; [|exact Hl|exact Hp|rewrite G; apply rpos_in; assumption || lia].
      unfold no_transform in E1. cbn [p_data r_point] in E1. apply (f_equal fst) in E1. cbn [fst] in E1. subst r1.
      rewrite G, rpos_next by (assumption || lia).
      unfold rtwo, rinv, rd_data, rd_read. cbn [r_hdr r_is r_size r_recsize r_data r_current at_pos is_data is_fail is_eof].
      split; [|split; [exact Ec|split; [lia|intros _; split; [lia|reflexivity]]]].
      split; [exact A|]. split; [exact B|]. split; [reflexivity|]. split; [discriminate|]. split; [exact E|]. split; [exact G|].
      split; [apply slice_length; apply rpos_in; assumption || lia|]. split; [apply slice_bytes, HB|lia].
    + eexists. split; [reflexivity|]. cbn [fst snd]. rewrite (Same L). split; [|reflexivity]. split; [exact Hi|]. auto.
  - unfold reader_seek. rewrite E. destruct (Z.eqb_spec (f_npts F) n) as [En|En].
    { destruct (Z.ltb_spec n (f_npts F)); [lia|]. destruct (Z.eqb_spec n (f_npts F)); [|lia].
      eexists. split; [reflexivity|]. cbn [fst snd]. split; [|reflexivity]. split; [exact Hi|]. auto. }
    destruct (Z.ltb_spec (f_npts F) n) as [L|L].
    { destruct (Z.ltb_spec n (f_npts F)); [lia|]. destruct (Z.eqb_spec n (f_npts F)); [lia|].
      eexists. split; [reflexivity|]. cbn [fst snd]. split; [|reflexivity]. split; [exact Hi|]. auto. }
    destruct (Z.ltb_spec n (f_npts F)); [|lia].
    rewrite (shows_reclen F _ A), (shows_doff F _ A), is_seek_clean, C by nia.
    eexists. split; [reflexivity|]. cbn [fst snd r_data]. split; [|reflexivity].
    unfold rtwo, rinv. cbn [r_hdr r_is r_size r_recsize r_data r_current at_pos is_data is_fail is_eof].
    rewrite Z.mod_small by lia. split; [|split; [reflexivity|split; [lia|]]].
    + repeat (split; [assumption || reflexivity || discriminate|]). lia.
    + intros _. split; [lia|]. unfold rpos. f_equal. f_equal. lia.
  - destruct (reset_ok xml F r HF Hns Hfin Hi) as (r1 & -> & I1 & Ec1 & Ed1 & _).
    eexists. split; [reflexivity|]. cbn [fst snd]. split; [|exact Ed1]. split; [exact I1|]. split; [exact Ec1|]. split; [lia|]. lia.
Qed.

Lemma rtwo_run xml F ops : forall r c s, las_file F -> no_schema_vlr F -> finite_scaling F -> 0 < f_reclen F -> exact_end F ->
  Forall rop_ok ops -> rtwo F r c s ->
  exists r1, rops_run xml r ops = Ok (r1, two_run F (c, s, r_data r) ops).
Proof.
  induction ops as [|o ops IH]; intros r c s HF Hns Hfin HR HE Ho Hi; cbn [rops_run two_run].
  - eauto.
  - inversion Ho; subst.
    destruct (rtwo_step xml F r c s o HF Hns Hfin HR HE H1 Hi) as (r1 & -> & I1). cbn [obind].
    destruct (two_step F (c, s, r_data r) o) as [[[c1 s1] p1] a]. cbn [fst snd] in *. destruct I1 as (I1 & Ed).
    destruct (IH r1 c1 s1 HF Hns Hfin HR HE H2 I1) as (r2 & ->). cbn [obind]. rewrite Ed. eauto.
Qed.

(** ** filtered reading *)
Section Filtered.
Variables (F : list Z) (H : header) (keep : point -> bool).
Hypothesis HF : las_file F.
Hypothesis HR : 0 < f_reclen F.
Hypothesis HE : exact_end F.
Hypothesis HN : f_npts F + 1 < 2 ^ 32.
Let acc (d : list Z) : bool := keep (mkPoint d H).
Let n := f_npts F.

(** reader positioned before record [j], holding record [j - 1] *)
Definition holds (r : reader) (j : Z) : Prop :=
  rinv F r /\ r_hdr r = H /\ r_current r = j /\ r_is r = at_pos F (rpos F j) /\ r_data r = file_record F (j - 1).

Lemma keep_acc r : r_hdr r = H -> keep (r_point r) = acc (r_data r).
Proof. intros E. unfold acc, r_point. now rewrite E. Qed.

Definition loop_result (j : Z) (res : (reader * unit) * outcome bool) : Prop :=
  (exists k r1, res = ((r1, tt), Ok false) /\ j <= k < n /\ holds r1 (k + 1) /\ acc (file_record F k) = true /\
     (forall i, j <= i < k -> acc (file_record F i) = false) /\ (k = j \/ k < n - 1)) \/
  (exists r1, (res = ((r1, tt), Ok true) /\ j + 2 <= n \/ res = ((r1, tt), Throw EOutOfRange) /\ acc (file_record F (n - 1)) = false) /\
     rinv F r1 /\ n <= r_current r1 /\
     (forall i, j <= i < n - 1 -> acc (file_record F i) = false)).

Lemma filter_loop_run fuel : forall j r, (Z.to_nat (n - j) + 1 < fuel)%nat -> 1 <= j <= n -> holds r j ->
  loop_result (j - 1) (filter_loop (fun _ p => (keep p, tt)) fuel r tt).
Proof.
  pose proof (exact_complete F HE HR) as HC. pose proof HF as (HB & _). destruct (fields_nonneg F HB) as (D0 & N0 & L0). fold n in N0.
  induction fuel as [|fuel IH]; intros j r Hfu Hj Hh; [lia|]. cbn [filter_loop].
  destruct Hh as (Hi & Eh & Ec & Es & Ed). rewrite (keep_acc r Eh), Ed.
  destruct (acc (file_record F (j - 1))) eqn:Ea.
  { left. exists (j - 1), r. split; [reflexivity|]. split; [lia|]. split; [|split; [exact Ea|split; [lia|now left]]].
    unfold holds. replace (j - 1 + 1) with j by lia. auto. }
  destruct (Z.eq_dec j n) as [Ej|Ej].
  - rewrite Ej in *. assert (Es' : r_is r = at_pos F (length F)) by (rewrite Es; unfold n; rewrite rpos_end; [reflexivity|assumption|assumption|fold n; lia]).
    clear Es; rename Es' into Es.
    destruct (read_counted_end F r HF HR Hi Es) as (r1 & -> & I1 & Dt & S1 & C1 & H1).
    pose proof I1 as (_ & _ & _ & _ & Esz & _). rewrite Esz. fold n. rewrite C1, Ec, Z.mod_small by (unfold n in *; lia).
    destruct (Z.eqb_spec (n + 1) n); [lia|].
    destruct fuel as [|fuel]; [lia|]. cbn [filter_loop]. rewrite (keep_acc r1) by congruence. rewrite Dt, Ed, Ea.
    rewrite (read_counted_failed F r1 I1 HR) by (rewrite S1; reflexivity).
    right. exists r1. split; [right; split; [reflexivity|exact Ea]|]. split; [exact I1|].
    split; [rewrite C1, Ec, Z.mod_small; unfold n in *; lia|]. intros; lia.
  - destruct (read_counted_at F r j HF HC Hi ltac:(fold n; lia) Es) as (r1 & -> & I1 & Dt & S1 & C1 & H1).
    pose proof I1 as (_ & _ & _ & _ & Esz & _). rewrite Esz. fold n. rewrite C1, Ec, Z.mod_small by (unfold n in *; lia).
    destruct (Z.eqb_spec (j + 1) n) as [En|En].
    + right. exists r1. split; [left; split; [reflexivity|lia]|]. split; [exact I1|].
      split; [rewrite C1, Ec, Z.mod_small; unfold n in *; lia|]. intros i Hi'. replace i with (j - 1) by lia. exact Ea.
    + assert (Hh : holds r1 (j + 1)).
      { split; [exact I1|]. split; [congruence|]. split; [rewrite C1, Ec, Z.mod_small; unfold n in *; lia|]. split; [exact S1|].
        rewrite Dt. f_equal. lia. }
      destruct (IH (j + 1) r1 ltac:(lia) ltac:(lia) Hh) as [(k & r2 & E2 & Hk & Hh2 & Hak & Hb & Hlast)|(r2 & E2 & I2 & Hc2 & Hb)].
      * left. exists k, r2. split; [exact E2|]. split; [lia|]. split; [exact Hh2|]. split; [exact Hak|]. split; [|lia].
        intros i Hi'. destruct (Z.eq_dec i (j - 1)) as [->|Ni]; [exact Ea|]. apply Hb. lia.
      * right. exists r2. split; [destruct E2 as [[E2 X]|[E2 X]]; [left; split; [exact E2|lia]|right; split; [exact E2|exact X]]|].
        split; [exact I2|]. split; [exact Hc2|].
        intros i Hi'. destruct (Z.eq_dec i (j - 1)) as [->|Ni]; [exact Ea|]. apply Hb. lia.
Qed.

(** reader about to read record [c] *)
Definition before (r : reader) (c : Z) : Prop :=
  rinv F r /\ r_hdr r = H /\ r_current r = c /\ 0 <= c <= n /\ (0 < c -> r_is r = at_pos F (rpos F c)).

Definition next_true (c : Z) (r1 : reader) : Prop := exists k, c <= k < n /\ before r1 (k + 1) /\ r_data r1 = file_record F k /\
  acc (file_record F k) = true /\ (forall i, c <= i < k -> acc (file_record F i) = false) /\ (k < n - 1 \/ k <= c + 1).
Definition next_false (c : Z) (r1 : reader) : Prop := rinv F r1 /\ n <= r_current r1 /\
  (forall i, c <= i < n - 1 -> acc (file_record F i) = false) /\
  (c + 3 <= n \/ c <= n - 1 -> c + 3 <= n \/ acc (file_record F (n - 1)) = false).

Lemma holds_before r k : 0 <= k < n -> holds r (k + 1) -> before r (k + 1) /\ r_data r = file_record F k.
Proof.
  intros Hk (A & B & C & D & E). split; [|rewrite E; f_equal; lia]. split; [exact A|]. split; [exact B|]. split; [exact C|]. split; [lia|auto].
Qed.

Lemma filtered_next r c : before r c ->
  exists r1 b, reader_next (stateless keep) no_transform r tt = ((r1, tt), Ok b) /\
    if b then next_true c r1 else next_false c r1.
Proof.
  intros (Hi & Eh & Ec & Hc & Hs).
  pose proof (exact_complete F HE HR) as HC. pose proof HF as (HB & _). destruct (fields_nonneg F HB) as (D0 & N0 & L0). fold n in N0.
  pose proof Hi as (A & B & C & D & E & G & H' & I & J).
  unfold reader_next, impl_next.
  set (r0 := if r_current r =? 0 then rd_stream r (is_seek (is_clear (r_is r)) (h_doff (r_hdr r))) else r).
  assert (I0 : rinv F r0 /\ r_current r0 = c /\ r_hdr r0 = H /\ r_is r0 = at_pos F (rpos F c)).
  { unfold r0. rewrite Ec. destruct (Z.eqb_spec c 0) as [Z0|Z0].
    - rewrite (shows_doff F _ A), is_seek_clean by lia. rewrite C.
      split; [apply rinv_stream; [exact Hi|reflexivity|discriminate]|]. unfold rd_stream. cbn [r_current r_hdr r_is].
      split; [exact Ec|]. split; [exact Eh|]. unfold rpos. rewrite Z0, Z.mul_0_l, Z.add_0_r. reflexivity.
    - split; [exact Hi|]. split; [exact Ec|]. split; [exact Eh|]. apply Hs. lia. }
  destruct I0 as (I0 & Ec0 & Eh0 & S0). pose proof I0 as (_ & _ & _ & _ & E0 & _).
  rewrite E0, Ec0. fold n. destruct (Z.leb_spec n c) as [L|L].
  { exists r0, false. split; [reflexivity|]. split; [exact I0|]. split; [lia|]. split; [intros; lia|]. lia. }
  destruct (read_counted_at F r0 c HF HC I0 ltac:(fold n; lia) S0) as (r1 & -> & I1 & Dt & S1 & C1 & H1).
  assert (Hh1 : holds r1 (c + 1)).
  { split; [exact I1|]. split; [congruence|]. split; [rewrite C1, Ec0, Z.mod_small; unfold n in *; lia|]. split; [exact S1|].
    rewrite Dt. f_equal. lia. }
  unfold filtered_part, stateless. rewrite (keep_acc r1) by congruence. rewrite Dt.
  destruct (acc (file_record F c)) eqn:Ea.
  { cbn [no_transform r_point p_data]. eexists _, true. split; [reflexivity|].
    replace (rd_data r1 (r_data r1)) with r1 by (destruct r1; reflexivity).
    destruct (holds_before r1 c ltac:(lia) Hh1) as (B1 & _). exists c. split; [lia|]. split; [exact B1|]. split; [exact Dt|].
    split; [exact Ea|]. split; [intros; lia|]. lia. }
  destruct (Z.eq_dec (c + 1) n) as [En|En].
  - (* the last record was rejected: read past the end *)
    destruct Hh1 as (I1' & Eh1 & Ec1 & _ & Ed1). rewrite En in S1. unfold n in S1. rewrite rpos_end in S1 by (assumption || (fold n; lia)).
    destruct (read_counted_end F r1 HF HR I1 S1) as (r2 & -> & I2 & Dt2 & S2 & C2 & H2).
    pose proof I2 as (_ & _ & Eda & _ & Esz & _). rewrite Eda.
    replace (length F + 3)%nat with (S (length F + 2)) by lia. cbn [filter_loop].
    rewrite (keep_acc r2) by congruence. rewrite Dt2, Dt, Ea. rewrite (read_counted_failed F r2 I2 HR) by (rewrite S2; reflexivity).
    exists r2, false. split; [reflexivity|]. split; [exact I2|]. split; [rewrite C2, Ec1, Z.mod_small; unfold n in *; lia|].
    split; [intros; lia|]. intros _. right. replace (n - 1) with c by lia. exact Ea.
  - destruct (read_counted_at F r1 (c + 1) HF HC I1 ltac:(fold n; lia) S1) as (r2 & -> & I2 & Dt2 & S2 & C2 & H2).
    destruct Hh1 as (_ & Eh1 & Ec1 & _ & Ed1).
    assert (Hh2 : holds r2 (c + 2)).
    { split; [exact I2|]. split; [congruence|]. split; [rewrite C2, Ec1, Z.mod_small; unfold n in *; lia|].
      split; [rewrite S2; f_equal; f_equal; lia|]. rewrite Dt2. f_equal. lia. }
    pose proof I2 as (_ & _ & Eda & _). rewrite Eda.
    assert (FU : (Z.to_nat (n - (c + 2)) + 1 < length F + 3)%nat).
    { destruct HC as (_ & HC2). specialize (HC2 ltac:(fold n; lia)). fold n in HC2. nia. }
    destruct (filter_loop_run (length F + 3) (c + 2) r2 FU ltac:(lia) Hh2) as [(k & r3 & -> & Hk & Hh3 & Hak & Hb & Hlast)|(r3 & E3 & I3 & Hc3 & Hb)].
    + cbn [no_transform r_point p_data]. eexists _, true. split; [reflexivity|].
      replace (rd_data r3 (r_data r3)) with r3 by (destruct r3; reflexivity).
      destruct (holds_before r3 k ltac:(lia) Hh3) as (B3 & D3). exists k. split; [lia|]. split; [exact B3|]. split; [exact D3|].
      split; [exact Hak|]. split; [|lia]. intros i Hi'. destruct (Z.eq_dec i c) as [->|Ni]; [exact Ea|]. apply Hb. lia.
    + assert (Hb' : forall i, c <= i < n - 1 -> acc (file_record F i) = false).
      { intros i Hi'. destruct (Z.eq_dec i c) as [->|Ni]; [exact Ea|]. apply Hb. lia. }
      destruct E3 as [[-> X]|[-> X]].
      * cbn [no_transform r_point p_data]. eexists _, false. split; [reflexivity|].
        replace (rd_data r3 (r_data r3)) with r3 by (destruct r3; reflexivity).
        split; [exact I3|]. split; [exact Hc3|]. split; [exact Hb'|]. intros _. left. lia.
      * exists r3, false. split; [reflexivity|]. split; [exact I3|]. split; [exact Hc3|]. split; [exact Hb'|]. intros _. now right.
Qed.

(** everything from record [c] on *)
Definition cond_from (c : Z) : bool :=
  (c + 3 <=? n) && acc (file_record F (n - 1)) && negb (acc (file_record F (n - 2))) && negb (acc (file_record F (n - 3))).
Definition out_from (c : Z) : list (list Z) :=
  let A := filter acc (records_from F c) in if cond_from c then removelast A else A.

Lemma records_from_step c : c < n -> records_from F c = file_record F c :: records_from F (c + 1).
Proof.
  intros Hc. unfold records_from. fold n. replace (Z.to_nat (n - c)) with (S (Z.to_nat (n - (c + 1)))) by lia.
  cbn [seq map]. rewrite Z.add_0_r. f_equal. rewrite <- seq_shift, map_map. apply map_ext. intros i. f_equal. lia.
Qed.
Lemma records_from_end c : n <= c -> records_from F c = [].
Proof. intros Hc. unfold records_from. fold n. replace (Z.to_nat (n - c)) with 0%nat by lia. reflexivity. Qed.
Lemma skip_rejected m : forall c, (forall i, c <= i < c + Z.of_nat m -> acc (file_record F i) = false) -> c + Z.of_nat m <= n ->
  filter acc (records_from F c) = filter acc (records_from F (c + Z.of_nat m)).
Proof.
  induction m as [|m IH]; intros c Hb Hm; [now rewrite Z.add_0_r|].
  rewrite records_from_step by lia. cbn [filter]. rewrite Hb by lia. rewrite IH by (intros; try apply Hb; lia).
  f_equal. f_equal. lia.
Qed.

Lemma read_all_from fuel : forall c r, (Z.to_nat (n - c) < fuel)%nat -> before r c ->
  exists r1, read_all (stateless keep) fuel r tt = Ok (out_from c, true, r1, tt) /\ rinv F r1 /\ n <= r_current r1.
Proof.
  induction fuel as [|fuel IH]; intros c r Hfu Hb; [lia|]. cbn [read_all].
  destruct (filtered_next r c Hb) as (r1 & b & -> & Hr). destruct b.
  - destruct Hr as (k & Hk & Hb1 & Dt & Ha & Hrej & Hlast).
    destruct (IH (k + 1) r1 ltac:(lia) Hb1) as (r2 & -> & I2 & C2). cbn [obind].
    exists r2. split; [|auto]. do 4 f_equal.
    assert (EA : filter acc (records_from F c) = file_record F k :: filter acc (records_from F (k + 1))).
    { rewrite (skip_rejected (Z.to_nat (k - c)) c) by (intros; try apply Hrej; lia).
      replace (c + Z.of_nat (Z.to_nat (k - c))) with k by lia. rewrite records_from_step by lia. cbn [filter]. now rewrite Ha. }
    unfold out_from. rewrite EA, Dt.
    assert (EC : cond_from c = cond_from (k + 1)).
    { unfold cond_from. destruct (Z.leb_spec (k + 1 + 3) n) as [L1|L1]; destruct (Z.leb_spec (c + 3) n) as [L2|L2]; cbn [andb]; try reflexivity; [lia|].
      destruct (Z.eq_dec k (n - 1)) as [->|N1]; [lia|]. destruct (Z.eq_dec k (n - 2)) as [->|N2]; [rewrite Ha; now rewrite !andb_false_r|].
      assert (k = n - 3) by lia. subst k. rewrite Ha. now rewrite !andb_false_r. }
    rewrite EC. destruct (cond_from (k + 1)) eqn:EC1; [|reflexivity].
    assert (NE : filter acc (records_from F (k + 1)) <> []).
    { unfold cond_from in EC1. rewrite !andb_true_iff in EC1. destruct EC1 as (((L & A1) & _) & _). intros X.
      assert (Hin : In (file_record F (n - 1)) (filter acc (records_from F (k + 1)))).
      { apply filter_In. split; [|exact A1]. unfold records_from. apply in_map_iff. exists (Z.to_nat (n - 1 - (k + 1))).
        split; [f_equal; lia|]. apply in_seq. fold n. lia. }
      rewrite X in Hin. destruct Hin. }
    destruct (filter acc (records_from F (k + 1))); [congruence|]. reflexivity.
  - destruct Hr as (I1 & C1 & Hrej & Hd). exists r1. split; [|auto]. do 4 f_equal.
    destruct Hb as (_ & _ & _ & Hc & _). unfold out_from.
    destruct (Z.eq_dec c n) as [->|Nc].
    { rewrite records_from_end by lia. cbn [filter]. now destruct (cond_from n). }
    rewrite (skip_rejected (Z.to_nat (n - 1 - c)) c) by (intros; try apply Hrej; lia).
    replace (c + Z.of_nat (Z.to_nat (n - 1 - c))) with (n - 1) by lia. rewrite records_from_step by lia.
    rewrite records_from_end by lia. cbn [filter]. destruct (acc (file_record F (n - 1))) eqn:Ea; [|now destruct (cond_from c)].
    assert (L3 : c + 3 <= n) by (destruct Hd as [X|X]; [lia|lia|congruence]).
    assert (EC : cond_from c = true).
    { unfold cond_from. rewrite Ea, (Hrej (n - 2)), (Hrej (n - 3)) by lia. destruct (Z.leb_spec (c + 3) n); [reflexivity|lia]. }
    rewrite EC. reflexivity.
Qed.
End Filtered.

Theorem filtered_all xml doy year F : las_file F -> no_schema_vlr F -> 0 < f_reclen F -> exact_end F -> f_npts F + 1 < 2 ^ 32 ->
  exists r, reader_open xml doy year F = Ok r /\
  forall keep fuel, (Z.to_nat (f_npts F) < fuel)%nat ->
    exists r1, read_all (stateless keep) fuel r tt =
      Ok ((let acc d := keep (mkPoint d (r_hdr r)) in
           if isolated_last F acc then removelast (filter acc (records_from F 0)) else filter acc (records_from F 0)), true, r1, tt).
Proof.
  intros HF Hns HR HE HN. destruct (open_ok xml doy year F HF Hns) as (r & E & Hi & Hc & Hd & Hv & Hs & HW).
  exists r. split; [exact E|]. intros keep fuel Hfu. pose proof HF as (HB & _). destruct (fields_nonneg F HB) as (D0 & N0 & L0).
  destruct (read_all_from F (r_hdr r) keep HF HR HE HN fuel 0 r) as (r1 & ER & _).
  - now rewrite Z.sub_0_r.
  - split; [exact Hi|]. split; [reflexivity|]. split; [exact Hc|]. split; [lia|]. lia.
  - exists r1. rewrite ER. reflexivity.
Qed.

(** ** truncated files *)
Lemma read_counted_short F r p : las_file F -> rinv F r -> r_is r = at_pos F p -> (length F - p < Z.to_nat (f_reclen F))%nat ->
  exists r1, read_counted r = (r1, Ok tt) /\ rinv F r1 /\ r_data r1 = patch (r_data r) (skipn p F) /\ is_fail (r_is r1) = true /\
    r_current r1 = (r_current r + 1) mod 2 ^ 32 /\ r_hdr r1 = r_hdr r.
Proof.
  intros HF Hi Hs Hsh. pose proof HF as (HB & _). pose proof Hi as (A & B & C & D & E & G & H & I & J).
  unfold read_counted, read_record. destruct (r_data r) as [|x d] eqn:Ed; [change (length (@nil Z)) with 0%nat in H; lia|]. rewrite <- Ed in H, I |- *.
  rewrite Hs. cbn [at_pos is_fail]. fold (at_pos F p). unfold is_read. cbn [at_pos is_eof is_fail is_pos is_data orb].
  rewrite G. assert (FS : firstn (Z.to_nat (f_reclen F)) (skipn p F) = skipn p F) by (apply firstn_all2; rewrite skipn_length; lia).
  rewrite FS, skipn_length.
  destruct (Nat.ltb_spec (length F - p) (Z.to_nat (f_reclen F))); [|lia]. cbn [obind].
  rewrite skipn_length. destruct (Nat.ltb_spec (length (r_data r)) (length F - p)); [lia|].
  eexists. split; [reflexivity|]. split; [|repeat split].
  unfold rinv, rd_read. cbn [r_hdr r_is r_size r_recsize r_data r_current is_data is_fail is_eof].
  split; [exact A|]. split; [exact B|]. split; [reflexivity|]. split; [reflexivity|]. split; [exact E|]. split; [exact G|].
  unfold patch. split; [rewrite app_length, !skipn_length; lia|].
  split; [apply bytes_app; [apply bytes_skipn; exact HB|apply bytes_skipn; exact I]|]. apply Z.mod_pos_bound. lia.
Qed.

(** number of whole records actually in the file *)
Lemma truncated_exact xml doy year F m : las_file F -> no_schema_vlr F -> 0 < f_reclen F -> f_doff F <= Z.of_nat (length F) ->
  let q := (Z.of_nat (length F) - f_doff F) / f_reclen F in
  q < f_npts F ->
  exists r r1, reader_open xml doy year F = Ok r /\
    let recs := map (fun i => file_record F (Z.of_nat i)) (seq 0 (Z.to_nat q)) in
    let bogus := patch (last recs (repeat 0 (Z.to_nat (f_reclen F)))) (skipn (Z.to_nat (f_doff F + q * f_reclen F)) F) in
    rops_run xml r (repeat RNext (Z.to_nat q + 1 + m)) =
      Ok (r1, map (fun d => (ATrue, d)) recs ++ [(ATrue, bogus)] ++ repeat (AFalse, bogus) m).
Proof.
  intros HF Hns HR HD q Hq. pose proof HF as (HB & _). destruct (fields_nonneg F HB) as (D0 & N0 & L0).
  assert (Hq0 : 0 <= q) by (apply Z.div_pos; lia).
  assert (Hqm : q * f_reclen F <= Z.of_nat (length F) - f_doff F < q * f_reclen F + f_reclen F).
  { pose proof (Z.div_mod (Z.of_nat (length F) - f_doff F) (f_reclen F) ltac:(lia)) as X.
    pose proof (Z.mod_pos_bound (Z.of_nat (length F) - f_doff F) (f_reclen F) HR). fold q in X. lia. }
  destruct (open_ok xml doy year F HF Hns) as (r & E & Hi & Hc & Hd & Hv & Hs & HW).
  (* state before sequential read number c <= q *)
  set (st := fun (r : reader) (c : Z) => rinv F r /\ r_current r = c /\ (0 < c -> r_is r = at_pos F (rpos F c))).
  assert (Pre : forall r c, st r c -> 0 <= c < f_npts F -> exists r0,
     (if r_current r =? 0 then rd_stream r (is_seek (is_clear (r_is r)) (h_doff (r_hdr r))) else r) = r0 /\
     rinv F r0 /\ r_current r0 = c /\ r_is r0 = at_pos F (rpos F c) /\ r_data r0 = r_data r).
  { intros r0 c (I0 & Ec & S0) Hcn. eexists. split; [reflexivity|]. pose proof I0 as (A & B & C & D & _). rewrite Ec.
    destruct (Z.eqb_spec c 0) as [->|Nc].
    - rewrite (shows_doff F _ A), is_seek_clean by lia. rewrite C.
      split; [apply rinv_stream; [exact I0|reflexivity|discriminate]|]. unfold rd_stream. cbn [r_current r_is r_data].
      split; [exact Ec|]. split; [unfold rpos; now rewrite Z.mul_0_l, Z.add_0_r|reflexivity].
    - split; [exact I0|]. split; [exact Ec|]. split; [apply S0; lia|reflexivity]. }
  assert (Step : forall r c, st r c -> 0 <= c < q -> exists r1, rop_run xml r RNext = (r1, Ok ATrue) /\ st r1 (c + 1) /\ r_data r1 = file_record F c).
  { intros r0 c St Hcq. destruct (Pre r0 c St ltac:(lia)) as (r1 & Er1 & I1 & C1 & S1 & Dt1).
    cbn [rop_run]. unfold reader_next, impl_next. rewrite Er1. pose proof I1 as (A & B & C & D & E' & G & H & I & J).
    rewrite E', C1. destruct (Z.leb_spec (f_npts F) c); [lia|].
    assert (M : (c + 1) * f_reclen F <= q * f_reclen F) by (apply Z.mul_le_mono_nonneg_r; lia).
    assert (M0 : 0 <= c * f_reclen F) by (apply Z.mul_nonneg_nonneg; lia).
    assert (RI : (rpos F c + Z.to_nat (f_reclen F) <= length F)%nat) by (unfold rpos; lia).
    unfold read_counted. rewrite S1, G. rewrite read_record_full; [|exact H|lia|exact RI].
    rewrite rpos_next by (assumption || lia). unfold filtered_part, no_filter, no_transform. cbn [p_data r_point fst snd ans of_bool rd_read r_data].
    eexists. split; [reflexivity|]. unfold st, rd_data, rd_read. cbn [r_data r_current r_is]. split; [|reflexivity].
    rewrite C1, Z.mod_small by lia. split; [|split; [reflexivity|reflexivity]].
    unfold rinv. cbn [r_hdr r_is r_size r_recsize r_data r_current at_pos is_data is_fail is_eof].
    split; [exact A|]. split; [exact B|]. split; [reflexivity|]. split; [discriminate|]. split; [exact E'|]. split; [exact G|].
    split; [apply slice_length; exact RI|]. split; [apply slice_bytes, HB|lia]. }
  assert (Fin : forall m r, rinv F r -> is_fail (r_is r) = true -> 0 < r_current r ->
     exists r1, rops_run xml r (repeat RNext m) = Ok (r1, repeat (AFalse, r_data r) m)).
  { clear - HR. induction m as [|m IH]; intros r I Hf Hcur; cbn [repeat rops_run]; [eauto|].
    cbn [rop_run]. unfold reader_next, impl_next. destruct (Z.eqb_spec (r_current r) 0); [lia|].
    assert (X : (if r_size r <=? r_current r then (r, tt, Throw EOutOfRange)
       else match read_counted r with (r1, Ok _) => match filtered_part no_filter r1 tt with
           | ((r2, fs2), Ok last) => match no_transform (r_point r2) with
               | Ok d => ((rd_data r2 d, fs2), if last then Throw EOutOfRange else Ok tt)
               | Throw e => ((r2, fs2), Throw e) | UB u => ((r2, fs2), UB u) end
           | ((r2, fs2), Throw e) => ((r2, fs2), Throw e) | ((r2, fs2), UB u) => ((r2, fs2), UB u) end
         | (r1, Throw e) => ((r1, tt), Throw e) | (r1, UB u) => ((r1, tt), UB u) end) = ((r, tt), Throw EOutOfRange)).
    { destruct (r_size r <=? r_current r); [reflexivity|]. now rewrite (read_counted_failed F r I HR Hf). }
    rewrite X. cbn [fst snd ans of_bool obind]. destruct (IH r I Hf Hcur) as (r1 & ->). cbn [obind]. eauto. }
  assert (All : forall k c r, st r c -> 0 <= c -> c + Z.of_nat k = q -> exists r1,
     rops_run xml r (repeat RNext (k + 1 + m)) =
     let recs := map (fun i => file_record F (c + Z.of_nat i)) (seq 0 k) in
     let bogus := patch (last recs (r_data r)) (skipn (Z.to_nat (f_doff F + q * f_reclen F)) F) in
     Ok (r1, map (fun d => (ATrue, d)) recs ++ [(ATrue, bogus)] ++ repeat (AFalse, bogus) m)).
  { induction k as [|k IH]; intros c r0 St Hc0 Hcq.
    - cbn [Nat.add repeat rops_run seq map app last]. assert (c = q) by lia. subst c.
      destruct (Pre r0 q St ltac:(lia)) as (r1 & Er1 & I1 & C1 & S1 & Dt1).
      assert (SH : (length F - rpos F q < Z.to_nat (f_reclen F))%nat) by (unfold rpos; lia).
      destruct (read_counted_short F r1 (rpos F q) HF I1 S1 SH) as (r2 & ER & I2 & Dt2 & F2 & C2 & H2).
      cbn [rop_run]. unfold reader_next, impl_next. rewrite Er1. pose proof I1 as (_ & _ & _ & _ & E' & _).
      rewrite E', C1. destruct (Z.leb_spec (f_npts F) q); [lia|]. rewrite ER.
      unfold filtered_part, no_filter, no_transform. cbn [p_data r_point fst snd ans of_bool].
      replace (rd_data r2 (r_data r2)) with r2 by (destruct r2; reflexivity). cbn [obind].
      destruct (Fin m r2 I2 F2) as (r3 & ->). { rewrite C2, C1, Z.mod_small; lia. }
      cbn [obind]. exists r3. rewrite Dt2, Dt1. reflexivity.
    - cbn [Nat.add repeat rops_run]. destruct (Step r0 c St ltac:(lia)) as (r1 & -> & St1 & Dt). cbn [obind].
      destruct (IH (c + 1) r1 St1 ltac:(lia) ltac:(lia)) as (r2 & ->). cbv zeta. cbn [obind].
      assert (MP : map (fun i => file_record F (c + 1 + Z.of_nat i)) (seq 0 k) = map (fun i => file_record F (c + Z.of_nat i)) (seq 1 k)).
      { rewrite <- seq_shift, map_map. apply map_ext. intros i. f_equal. lia. }
      exists r2. rewrite MP, Dt. cbn [seq map app]. rewrite Z.add_0_r. f_equal. f_equal. f_equal.
      assert (LA : forall (l : list (list Z)) a d, last (a :: l) d = last l a).
      { clear. induction l as [|b l IH]; intros a d; [reflexivity|]. change (last (a :: b :: l) d) with (last (b :: l) d). rewrite (IH b d).
        change (last (b :: l) a) with (match l with [] => b | _ => last l a end). destruct l; [reflexivity|]. rewrite <- (IH b a). reflexivity. }
      rewrite LA. reflexivity. }
  assert (St0 : st r 0) by (split; [exact Hi|]; split; [exact Hc|lia]).
  destruct (All (Z.to_nat q) 0 r St0 ltac:(lia) ltac:(lia)) as (r1 & ER).
  exists r, r1. split; [exact E|]. cbv zeta in *. rewrite ER, Hd. reflexivity.
Qed.

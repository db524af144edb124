(** Reading with transforms: same records as without, each transformed once. *)
From Coq Require Import ZArith List Bool Lia String.
From Coq Require Import ZifyBool ZifyNat.
Import ListNotations.
From Verif Require Import Outcome Bytes Float64 CStr Header_Model Vlr_Model Schema_Model Point_Model Stream_Model Stream_Proofs
  IO_Spec Reader_Proofs Reader_Vlrs Reader_Model Reader_Spec Reader_Schema Reader_Api Reader_Open Reader_Hist Reader_Filter Writer_Model Writer_Proofs
  Prop_Reader Summary_Model Las2las_Spec Las2las_Model Las2las_Loop Transform_Model Transf_Model.
Local Open Scope Z_scope.
Local Notation length := List.length (only parsing).

(** All points a loop of ReadNextPoint delivers, with transforms. *)
Fixpoint read_all_tr {FS} (flt : option (FS -> point -> bool * FS)) (tr : point -> outcome (list Z)) (fuel : nat) (r : reader) (fs : FS)
  : outcome (list (list Z) * bool * reader * FS) :=
  match fuel with
  | O => Ok ([], false, r, fs)
  | S k =>
      match reader_next flt tr r fs with
      | ((r1, fs1), Ok true) => let! (l, b, r2, fs2) := read_all_tr flt tr k r1 fs1 in Ok (r_data r1 :: l, b, r2, fs2)
      | ((r1, fs1), Ok false) => Ok ([], true, r1, fs1)
      | (_, Throw e) => Throw e
      | (_, UB u) => UB u
      end
  end.

Section Run.
Variables (F : list Z) (h : header) (tr : point -> outcome (list Z)).
Hypothesis HF : las_file F.
Hypothesis HC : complete F.
Let n := f_npts F.
(** needed with a filter *)
Definition ends_well : Prop := exact_end F /\ f_npts F + 1 < 2 ^ 32.
(** the transform works on every record of the file *)
Hypothesis TR : forall i, 0 <= i < n -> exists d, tr (mkPoint (file_record F i) h) = Ok d /\ bytes_ok d /\ Z.of_nat (length d) = f_reclen F.

Definition a_record (d : list Z) : Prop := exists i, 0 <= i < n /\ d = file_record F i.

(** between two calls *)
Definition ready (r : reader) : Prop :=
  rinv F r /\ r_hdr r = h /\ (r_current r < n -> 0 < r_current r -> r_is r = at_pos F (rpos F (r_current r))).
(** within a call, after a read *)
Definition inside (r : reader) : Prop :=
  rinv F r /\ r_hdr r = h /\ a_record (r_data r) /\
  ((1 <= r_current r <= n /\ r_is r = at_pos F (rpos F (r_current r))) \/ (r_current r = n + 1 /\ is_fail (r_is r) = true)).
Lemma inside_ready r : inside r -> ready r.
Proof. intros (A & B & _ & [(C & D)|(C & D)]); (split; [exact A|split; [exact B|]]); intros; [exact D|lia]. Qed.

Lemma n_range : 0 <= n < 2 ^ 32.
Proof. destruct (fields_nonneg F (proj1 HF)) as (_ & N0 & _). exact N0. Qed.
Lemma reclen_pos : 0 < f_reclen F.
Proof. apply HC. Qed.

Lemma inside_read r r1 : ends_well -> inside r -> read_counted r = (r1, Ok tt) -> inside r1.
Proof.
  intros (HE & HN) (A & B & (i & Hi & Di) & [(C & D)|(C & D)]) E; pose proof n_range as NR.
  - destruct (Z_lt_le_dec (r_current r) n) as [L|L].
    + destruct (read_counted_at F r (r_current r) HF HC A ltac:(fold n; lia) D) as (r2 & E2 & I2 & D2 & S2 & C2 & H2).
      rewrite E in E2. apply (f_equal fst) in E2. cbn [fst] in E2. subst r2.
      rewrite Z.mod_small in C2 by lia. split; [exact I2|]. split; [congruence|]. split; [exists (r_current r); split; [lia|exact D2]|]. left. rewrite C2. split; [lia|exact S2].
    + assert (X : r_current r = n) by lia. rewrite X in D. unfold n in D. rewrite rpos_end in D by (apply HF || assumption || (fold n; lia)).
      destruct (read_counted_end F r HF reclen_pos A D) as (r2 & E2 & I2 & D2 & S2 & C2 & H2).
      rewrite E in E2. apply (f_equal fst) in E2. cbn [fst] in E2. subst r2. rewrite X, Z.mod_small in C2 by (fold n in HN; lia).
      split; [exact I2|]. split; [congruence|]. split; [exists i; split; [exact Hi|congruence]|]. right. split; [exact C2|]. rewrite S2. reflexivity.
  - rewrite (read_counted_failed F r A reclen_pos D) in E. apply (f_equal snd) in E. discriminate E.
Qed.
Lemma inside_loop {FS} (f : FS -> point -> bool * FS) fuel : ends_well -> forall r fs r1 fs1 b, inside r -> filter_loop f fuel r fs = ((r1, fs1), Ok b) -> inside r1.
Proof.
  intros HE. induction fuel as [|fuel IH]; intros r fs r1 fs1 b I E; cbn [filter_loop] in E; [apply (f_equal snd) in E; discriminate E|].
  destruct (f fs (r_point r)) as [k fs2]. destruct k; [injection E as <- _ _; exact I|].
  destruct (read_counted r) as [r2 o] eqn:C. destruct o as [[]|e|u]; try (apply (f_equal snd) in E; discriminate E).
  pose proof (inside_read r r2 HE I C) as I2. destruct (r_current r2 =? r_size r2); [injection E as <- _ _; exact I2|]. exact (IH _ _ _ _ _ I2 E).
Qed.
Lemma inside_part {FS} (flt : option (FS -> point -> bool * FS)) r fs r1 fs1 b : ends_well \/ flt = None -> inside r ->
  filtered_part flt r fs = ((r1, fs1), Ok b) -> inside r1.
Proof.
  intros HE I E. unfold filtered_part in E. destruct flt as [f|]; [|injection E as <- _ _; exact I]. destruct HE as [HE|HE]; [|discriminate].
  destruct (f fs (r_point r)) as [k fs2]. destruct k; [injection E as <- _ _; exact I|].
  destruct (read_counted r) as [r2 o] eqn:C. destruct o as [[]|e|u]; try (apply (f_equal snd) in E; discriminate E).
  exact (inside_loop f _ HE _ _ _ _ _ (inside_read r r2 HE I C) E).
Qed.

(** the same call on a reader whose buffer holds something else *)
Definition buffer (d : list Z) : Prop := bytes_ok d /\ length d = Z.to_nat (f_reclen F).
Lemma rinv_buffer r d : rinv F r -> buffer d -> rinv F (rd_data r d).
Proof. intros (A & B & C & D & E & G & H & I & J) (Bd & Ld). unfold rinv, rd_data. cbn [r_hdr r_is r_size r_recsize r_data r_current]. auto 12. Qed.

Lemma next_same {FS} (flt : option (FS -> point -> bool * FS)) r d fs r1 fs1 o : ends_well \/ flt = None -> ready r -> buffer d ->
  reader_next flt no_transform r fs = ((r1, fs1), Ok o) ->
  ready r1 /\ exists d1, buffer d1 /\ reader_next flt tr (rd_data r d) fs = ((rd_data r1 d1, fs1), Ok o) /\
    (o = true -> tr (mkPoint (r_data r1) h) = Ok d1 /\ a_record (r_data r1)).
Proof.
  intros HE (A & B & S) Bd E. unfold reader_next in *.
  assert (X : exists rr o', impl_next flt no_transform r fs = ((rr, fs1), o') /\ r1 = rr /\ (o = true -> o' = Ok tt) /\ (o = false -> o' = Throw EOutOfRange)).
  { destruct (impl_next flt no_transform r fs) as [[rr fss] [[]|e|u]]; [|destruct e; try (apply (f_equal snd) in E; discriminate E)|apply (f_equal snd) in E; discriminate E];
      injection E as <- <- <-; eexists _, _; (split; [reflexivity|]); (split; [reflexivity|]); split; intros; congruence. }
  destruct X as (rr & o' & E1 & <- & OT & OF). clear E.
  assert (ME : forall x, impl_next flt tr (rd_data r d) fs = ((rd_data r1 x, fs1), o') ->
    match impl_next flt tr (rd_data r d) fs with (rf, Ok _) => (rf, Ok true) | (rf, Throw EOutOfRange) => (rf, Ok false) | (rf, Throw e) => (rf, Throw e) | (rf, UB u) => (rf, UB u) end = ((rd_data r1 x, fs1), Ok o)).
  { intros x ->. destruct o; [rewrite (OT eq_refl)|rewrite (OF eq_refl)]; reflexivity. }
  unfold impl_next in E1. unfold impl_next in ME |- *. change (r_current (rd_data r d)) with (r_current r) in *. change (r_is (rd_data r d)) with (r_is r) in *. change (r_hdr (rd_data r d)) with (r_hdr r) in *.
  set (r0 := if r_current r =? 0 then rd_stream r (is_seek (is_clear (r_is r)) (h_doff (r_hdr r))) else r) in *.
  assert (Q0 : (if r_current r =? 0 then rd_stream (rd_data r d) (is_seek (is_clear (r_is r)) (h_doff (r_hdr r))) else rd_data r d) = rd_data r0 d) by (unfold r0; destruct (r_current r =? 0); reflexivity).
  rewrite Q0 in *. clear Q0.
  pose proof A as (A1 & A2 & A3 & A4 & A5 & A6 & A7 & A8 & A9).
  assert (R0 : rinv F r0 /\ r_hdr r0 = h /\ r_current r0 = r_current r /\ (r_current r < n -> r_is r0 = at_pos F (rpos F (r_current r)))).
  { unfold r0. destruct (Z.eqb_spec (r_current r) 0) as [Z0|Z0].
    - rewrite (shows_doff F _ A1). destruct (fields_nonneg F (proj1 HF)) as (D0 & _ & _). rewrite is_seek_clean by lia. rewrite A3.
      split; [apply rinv_stream; [exact A|reflexivity|discriminate]|]. split; [exact B|]. split; [reflexivity|]. intros _. unfold rd_stream. cbn [r_is]. unfold rpos. rewrite Z0, Z.mul_0_l, Z.add_0_r. reflexivity.
    - split; [exact A|]. split; [exact B|]. split; [reflexivity|]. intros L. apply S; lia. }
  destruct R0 as (I0 & H0 & C0 & S0). clearbody r0. change (r_size (rd_data r0 d)) with (r_size r0) in *. change (r_current (rd_data r0 d)) with (r_current r0) in *.
  pose proof I0 as (_ & _ & _ & _ & Z0 & _ & _ & _ & CC).
  destruct (Z.leb_spec (r_size r0) (r_current r0)) as [L|L].
  - injection E1 as <- <- <-. destruct o; [specialize (OT eq_refl); discriminate|].
    split; [split; [exact I0|split; [exact H0|]]; intros; unfold n in *; lia|]. exists d. split; [exact Bd|]. split; [apply ME; reflexivity|discriminate].
  - rewrite C0 in L. specialize (S0 ltac:(unfold n; lia)).
    destruct (read_counted_at F r0 (r_current r) HF HC I0 ltac:(lia) S0) as (r2 & E2 & I2 & D2 & S2 & C2 & H2).
    destruct (read_counted_at F (rd_data r0 d) (r_current r) HF HC (rinv_buffer r0 d I0 Bd) ltac:(lia) S0) as (r3 & E3 & I3 & D3 & S3 & C3 & H3).
    assert (r3 = r2).
    { pose proof I2 as (_ & _ & _ & _ & P1 & P2 & _). pose proof I3 as (_ & _ & _ & _ & P3 & P4 & _). change (r_hdr (rd_data r0 d)) with (r_hdr r0) in H3. change (r_current (rd_data r0 d)) with (r_current r0) in C3.
      destruct r2 as [q1 q2 q3 q4 q5 q6], r3 as [p1 p2 p3 p4 p5 p6]. cbn [r_is r_hdr r_data r_size r_current r_recsize] in *. congruence. }
    subst r3. rewrite E3 in ME |- *. rewrite E2 in E1.
    assert (IN : inside r2).
    { split; [exact I2|]. split; [congruence|]. split; [exists (r_current r); split; [unfold n; lia|exact D2]|]. left. pose proof n_range as NR. rewrite C0, Z.mod_small in C2 by (unfold n in *; lia). rewrite C2. split; [unfold n; lia|exact S2]. }
    destruct (filtered_part flt r2 fs) as [[r4 fs4] o4] eqn:FP. destruct o4 as [last|e|u].
    + pose proof (inside_part flt r2 fs r4 fs4 last HE IN FP) as I4. cbn [no_transform] in E1.
      change (rd_data r4 (p_data (r_point r4))) with (rd_data r4 (r_data r4)) in E1. replace (rd_data r4 (r_data r4)) with r4 in E1 by (destruct r4; reflexivity).
      injection E1 as <- <- E1. pose proof I4 as (_ & H4 & (i & Hi & Di) & _). destruct (TR i Hi) as (d1 & T1 & B1 & L1). rewrite <- Di, <- H4 in T1.
      change (mkPoint (r_data r4) (r_hdr r4)) with (r_point r4) in T1. rewrite T1 in ME |- *.
      split; [apply inside_ready; exact I4|]. exists d1. split; [split; [exact B1|lia]|]. split; [apply ME; rewrite E1; reflexivity|]. intros _. rewrite <- H4. split; [exact T1|exists i; auto].
    + injection E1 as <- <- <-. destruct o; [specialize (OT eq_refl); discriminate|]. pose proof (OF eq_refl) as X. injection X as ->.
      assert (R4 : rinv F r4 /\ r_hdr r4 = h /\ (r_current r4 < n -> 0 < r_current r4 -> r_is r4 = at_pos F (rpos F (r_current r4))) /\ buffer (r_data r4)).
      { destruct flt as [f|]; [|discriminate FP]. destruct HE as [HE|HE]; [|discriminate].
        assert (TH : forall r5 r6 e, inside r5 -> read_counted r5 = (r6, Throw e) -> r6 = r5).
        { intros r5 r6 e _ E5. unfold read_counted in E5. destruct (read_record _ _ _) as [[]| |]; try (apply (f_equal snd) in E5; discriminate E5). apply (f_equal fst) in E5. now symmetry. }
        assert (LT : forall fuel r5 fs5 r6 fs6 e, inside r5 -> filter_loop f fuel r5 fs5 = ((r6, fs6), Throw e) -> inside r6).
        { induction fuel as [|fuel IH]; intros r5 fs5 r6 fs6 e I5 E5; cbn [filter_loop] in E5; [apply (f_equal snd) in E5; discriminate E5|].
          destruct (f fs5 (r_point r5)) as [k fs7]. destruct k; [apply (f_equal snd) in E5; discriminate E5|].
          destruct (read_counted r5) as [r7 o7] eqn:C7. destruct o7 as [[]|e7|u7]; [|injection E5 as <- _ _; rewrite (TH _ _ _ I5 C7); exact I5|apply (f_equal snd) in E5; discriminate E5].
          pose proof (inside_read r5 r7 HE I5 C7) as I7. destruct (r_current r7 =? r_size r7); [apply (f_equal snd) in E5; discriminate E5|]. exact (IH _ _ _ _ _ I7 E5). }
        assert (I4 : inside r4).
        { unfold filtered_part in FP. destruct (f fs (r_point r2)) as [k fs7]. destruct k; [apply (f_equal snd) in FP; discriminate FP|].
          destruct (read_counted r2) as [r7 o7] eqn:C7. destruct o7 as [[]|e7|u7]; [|injection FP as <- _ _; rewrite (TH _ _ _ IN C7); exact IN|apply (f_equal snd) in FP; discriminate FP].
          exact (LT _ _ _ _ _ _ (inside_read r2 r7 HE IN C7) FP). }
        destruct (inside_ready r4 I4) as (W1 & W2 & W3). split; [exact W1|]. split; [exact W2|]. split; [exact W3|]. pose proof W1 as (_ & _ & _ & _ & _ & _ & W7 & W8 & _). split; assumption. }
      destruct R4 as (W1 & W2 & W3 & W4). split; [split; [exact W1|split; [exact W2|exact W3]]|]. exists (r_data r4). split; [exact W4|]. split; [|discriminate].
      apply ME. destruct r4; reflexivity.
    + injection E1 as <- <- <-. destruct o; [specialize (OT eq_refl); discriminate|specialize (OF eq_refl); discriminate].
Qed.

Lemma read_tr {FS} (flt : option (FS -> point -> bool * FS)) fuel : ends_well \/ flt = None -> forall r d fs ds r1 fs1, ready r -> buffer d ->
  read_all flt fuel r fs = Ok (ds, true, r1, fs1) ->
  exists ds' r1', read_all_tr flt tr fuel (rd_data r d) fs = Ok (ds', true, r1', fs1) /\ rinv F r1' /\
    Forall2 (fun d d' => tr (mkPoint d h) = Ok d' /\ a_record d /\ buffer d') ds ds'.
Proof.
  intros HE. induction fuel as [|fuel IH]; intros r d fs ds r1 fs1 R Bd E; cbn [read_all read_all_tr] in *; [discriminate|].
  destruct (reader_next flt no_transform r fs) as [[r2 fs2] o] eqn:N. destruct o as [b|e|u]; try (destruct b; discriminate); try discriminate.
  destruct (next_same flt r d fs r2 fs2 b HE R Bd N) as (R2 & d2 & B2 & E2 & T2). rewrite E2. destruct b.
  - destruct (read_all flt fuel r2 fs2) as [[[[l0 b] r3] fs3]|e|u] eqn:RA; try discriminate. cbn [obind] in E.
    assert (P : ds = r_data r2 :: l0 /\ b = true /\ r1 = r3 /\ fs1 = fs3) by (injection E; intros; auto). destruct P as (-> & -> & -> & ->).
    destruct (IH r2 d2 fs2 l0 r3 fs3 R2 B2 RA) as (ds' & r1' & E3 & I3 & F3). rewrite E3. cbn [obind]. exists (d2 :: ds'), r1'. split; [reflexivity|]. split; [exact I3|].
    destruct (T2 eq_refl) as (T & AR). constructor; auto.
  - assert (P : ds = [] /\ r1 = r2 /\ fs1 = fs2) by (injection E; intros; auto). destruct P as (-> & -> & ->).
    exists [], (rd_data r2 d2). split; [reflexivity|]. split; [apply rinv_buffer; [apply R2|exact B2]|constructor].
Qed.
End Run.

(** The loop of las2las over the transformed points. *)
Lemma loop_feeds_tr {FS} t h mb sp (flt : option (FS -> point -> bool * FS)) ts fuel : forall r fs l ds r1 fs1,
  read_all_tr flt (transformed ts) fuel r fs = Ok (ds, true, r1, fs1) ->
  point_loop_tr t h mb sp flt ts fuel r fs l = (let! l' := feed t h mb sp l (map (fun d => mkPoint d (r_hdr r)) ds) in Ok (r1, l')).
Proof.
  induction fuel as [|fuel IH]; intros r fs l ds r1 fs1 E; cbn [read_all_tr point_loop_tr] in *; [discriminate|].
  destruct (reader_next flt (transformed ts) r fs) as [[r2 fs2] a] eqn:N. pose proof (next_hdr _ _ _ _ _ _ _ N) as H.
  destruct a as [[|]|e|u]; try discriminate.
  - destruct (read_all_tr flt _ fuel r2 fs2) as [[[[l0 b] r3] fs3]|e|u] eqn:R; try discriminate. cbn [obind] in E. injection E as <- -> -> ->.
    cbn [map feed]. change (r_point r2) with (mkPoint (r_data r2) (r_hdr r2)). rewrite H.
    destruct (one_point t h mb sp l (mkPoint (r_data r2) (r_hdr r))); cbn [obind]; try reflexivity. rewrite (IH _ _ _ _ _ _ R). now rewrite H.
  - injection E as <- <- <-. reflexivity.
Qed.

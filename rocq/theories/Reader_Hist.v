(** Histories of reader calls. *)
From Coq Require Import ZArith List Bool Lia String.
From Coq Require Import ZifyBool ZifyNat.
Import ListNotations.
From Verif Require Import Outcome Bytes Float64 Float64_Proofs CStr Vlr_Model Schema_Model Schema_Spec Schema_Api Schema_Proofs
  Header_Model Point_Model Stream_Model Stream_Proofs Reader_Model IO_Spec Reader_Proofs Reader_Vlrs Reader_Schema Reader_Open
  Reader_Spec Reader_Api.
Local Open Scope Z_scope.
Local Notation length := List.length (only parsing).

(** the VLRs of [F], once more for every Reset *)
Definition vlr_copies (F : list Z) (l : list vlr) : Prop := exists k, l = List.concat (repeat (file_vlrs F) k).
(** [F] is read with the standard layout of its format *)
Definition reads_standard (xml : vlr -> outcome schema) (F : list Z) : Prop := falls_back xml (file_vlrs F).
Lemma plain_standard xml F : no_schema_vlr F -> reads_standard xml F.
Proof. apply plain_falls_back. Qed.
Lemma copies_snoc F l : vlr_copies F l -> vlr_copies F (l ++ file_vlrs F).
Proof.
  intros (k & ->). exists (S k). replace (S k) with (k + 1)%nat by lia.
  rewrite repeat_app, concat_app. cbn [repeat List.concat]. now rewrite app_nil_r.
Qed.
Lemma copies_fall_back xml F l : reads_standard xml F -> vlr_copies F l -> falls_back xml (l ++ file_vlrs F).
Proof. intros H (k & ->). apply falls_back_app; [now apply falls_back_repeat|exact H]. Qed.

(** Invariant of a reader over file [F]. *)
Definition rinv (F : list Z) (r : reader) : Prop :=
  shows_file F (r_hdr r) /\ vlr_copies F (h_vlrs (r_hdr r)) /\ is_data (r_is r) = F /\
  (is_fail (r_is r) = true -> is_eof (r_is r) = true) /\
  r_size r = f_npts F /\ r_recsize r = f_reclen F /\ length (r_data r) = Z.to_nat (f_reclen F) /\
  bytes_ok (r_data r) /\ 0 <= r_current r < 2 ^ 32.

Lemma shows_doff F h : shows_file F h -> h_doff h = f_doff F.
Proof. intros (P & _). exact (f_equal ph_doff P). Qed.
Lemma shows_npts F h : shows_file F h -> h_npts h = f_npts F.
Proof. intros (P & _). exact (f_equal ph_npts P). Qed.
Lemma shows_reclen F h : shows_file F h -> get_record_length h = f_reclen F.
Proof. intros (P & _). exact (f_equal ph_reclen P). Qed.
Lemma shows_bytes F h : las_file F -> shows_file F h -> schema_bytes (h_schema h) = f_reclen F.
Proof.
  intros (HB & _ & _ & _ & _ & _ & Hf & _) (_ & _ & _ & _ & _ & Hi & _). now apply (layout_bytes F _ 8).
Qed.

Lemma header_new_facts doy year : exists h, header_new doy year = Ok h /\ length (h_byret h) = 7%nat /\
  h_srs h = [] /\ h_vlrs h = [] /\ sinv 0 (h_schema h) (std_fields 3) /\ get_record_length h = 34 /\
  Forall (in_unsigned 32) (h_byret h).
Proof.
  destruct (sinv_new 3 ltac:(lia)) as (s & E & Hi & Hf). unfold header_new. rewrite E. cbn [obind].
  eexists. split; [reflexivity|]. split; [reflexivity|]. split; [reflexivity|]. split; [reflexivity|].
  split; [exact Hi|]. unfold get_record_length. cbn [h_schema]. rewrite (sinv_bytes _ _ _ Hi).
  split; [reflexivity|]. apply Forall_forall. intros b Hb. cbn in Hb. unfold in_unsigned. intuition lia.
Qed.

Lemma zsum_acc l : forall a, fold_left Z.add l a = a + zsum l.
Proof.
  unfold zsum. induction l as [|x l IH]; intros a; cbn [fold_left]; [lia|]. rewrite IH, (IH (0 + x)). lia.
Qed.
Lemma zsum_cons x l : zsum (x :: l) = x + zsum l.
Proof. unfold zsum at 1. cbn [fold_left]. now rewrite zsum_acc. Qed.
Lemma zsum_repeat0 n : zsum (repeat 0 n) = 0.
Proof. induction n as [|n IH]; [reflexivity|]. cbn [repeat]. now rewrite zsum_cons, IH. Qed.
Lemma zsum_zero l : bytes_ok l -> zsum l = 0 -> l = repeat 0 (length l).
Proof.
  assert (NN : forall m, bytes_ok m -> 0 <= zsum m).
  { intros m. induction 1 as [|x m Hx Hm IH]; [reflexivity|]. rewrite zsum_cons. unfold is_byte in Hx. lia. }
  induction 1 as [|x l Hx Hl IH]; [reflexivity|]. rewrite zsum_cons. intros E. cbn [List.length repeat].
  pose proof (NN l Hl). unfold is_byte in Hx. rewrite <- IH by lia. f_equal. lia.
Qed.
Lemma bytes_repeat0 n : bytes_ok (repeat 0 n).
Proof. unfold bytes_ok. apply Forall_forall. intros x Hx. apply repeat_spec in Hx. subst. unfold is_byte. lia. Qed.

Lemma open_ok_x xml doy year F : las_file F -> reads_standard xml F ->
  exists r, reader_open xml doy year F = Ok r /\ rinv F r /\ r_current r = 0 /\
    r_data r = repeat 0 (Z.to_nat (f_reclen F)) /\ h_vlrs (r_hdr r) = file_vlrs F /\ r_is r = at_pos F 0 /\
    header_wf (r_hdr r).
Proof.
  intros HF Hns. unfold reader_open.
  destruct (header_new_facts doy year) as (h0 & E0 & H7 & Hsr & Hvl & Hi & RL & HBR). rewrite E0. cbn [obind]. rewrite RL.
  unfold impl_read_header. change (is_eof (is_open F)) with false. cbn iota.
  destruct (read_header_ok xml (is_open F) F h0 (std_fields 3) eq_refl eq_refl HF H7) as (h & E & Hsh & Hv & Hpad & HWF).
  - rewrite Hsr, Hvl. reflexivity.
  - rewrite Hvl. exact Hns.
  - apply (sinv_mono 0); [lia|exact Hi].
  - left. reflexivity.
  - rewrite E. cbn [obind]. pose proof Hsh as (_ & _ & HC & _). rewrite HC.
    unfold set_header. cbn [p_data]. rewrite zsum_repeat0. cbn [Z.eqb]. cbn [obind p_data].
    eexists. split; [reflexivity|]. unfold impl_reset, rinv. cbn [r_hdr r_is r_size r_recsize r_data r_current].
    rewrite (shows_reclen F h Hsh). rewrite (shows_bytes F h HF Hsh), (shows_npts F h Hsh).
    rewrite Hvl in Hv. cbn [app] in Hv. rewrite Hv.
    split; [split; [exact Hsh|]|].
    + split; [exists 1%nat; cbn [repeat List.concat]; symmetry; apply app_nil_r|]. split; [reflexivity|]. split; [discriminate|]. split; [reflexivity|]. split; [reflexivity|].
      split; [apply repeat_length|]. split; [apply bytes_repeat0|lia].
    + split; [reflexivity|]. split; [reflexivity|]. split; [reflexivity|]. split; [reflexivity|].
      apply HWF; [exact HBR|rewrite Hvl; constructor].
Qed.

(** ... and the padding it notes: the gap between the VLRs and the point data *)
Lemma open_pad_x xml doy year F : las_file F -> reads_standard xml F ->
  exists r, reader_open xml doy year F = Ok r /\
    forall b, vlr_block_size (r_hdr r) = Ok b -> h_pad (r_hdr r) = (h_doff (r_hdr r) - (h_hsize (r_hdr r) + b)) mod 2 ^ 32.
Proof.
  intros HF Hns. unfold reader_open.
  destruct (header_new_facts doy year) as (h0 & E0 & H7 & Hsr & Hvl & Hi & RL & HBR). rewrite E0. cbn [obind]. rewrite RL.
  unfold impl_read_header. change (is_eof (is_open F)) with false. cbn iota.
  destruct (read_header_ok xml (is_open F) F h0 (std_fields 3) eq_refl eq_refl HF H7) as (h & E & Hsh & Hv & (_ & Hpad) & HWF).
  - rewrite Hsr, Hvl. reflexivity.
  - rewrite Hvl. exact Hns.
  - apply (sinv_mono 0); [lia|exact Hi].
  - left. reflexivity.
  - rewrite E. cbn [obind]. pose proof Hsh as (_ & _ & HC & _). rewrite HC.
    unfold set_header. cbn [p_data]. rewrite zsum_repeat0. cbn [Z.eqb]. cbn [obind p_data].
    eexists. split; [reflexivity|]. exact Hpad.
Qed.

Lemma finite_same F h : finite_scaling F -> shows_file F h -> scaling_differs h h = false.
Proof.
  intros Hfin (P & _). unfold scaling_differs.
  assert (P1 := f_equal ph_scale P). assert (P2 := f_equal ph_offset P). cbn [ph_scale ph_offset pub_of_header pub_of_file] in P1, P2.
  unfold bits3 in P1, P2. injection P1 as S1 S2 S3. injection P2 as O1 O2 O3.
  assert (G : forall x o, f64_bits x = u_at F o 8 -> In o [131; 139; 147; 155; 163; 171]%nat -> compare_distance x x = true).
  { intros x o E Ho. apply compare_distance_refl. rewrite <- (f64_of_bits_bits x), E.
    unfold finite_scaling in Hfin. rewrite Forall_forall in Hfin. now apply Hfin. }
  rewrite (G _ _ S1), (G _ _ S2), (G _ _ S3), (G _ _ O1), (G _ _ O2), (G _ _ O3) by (cbn; tauto). reflexivity.
Qed.

Lemma reset_ok_x xml F r : las_file F -> reads_standard xml F -> finite_scaling F -> rinv F r ->
  exists r1, reader_reset xml r = Ok r1 /\ rinv F r1 /\ r_current r1 = 0 /\ r_data r1 = r_data r /\
    h_vlrs (r_hdr r1) = h_vlrs (r_hdr r) ++ file_vlrs F.
Proof.
  intros HF Hns Hfin (Hsh & Hpl & HD & Hfe & Hsz & Hrs & Hln & Hbd & Hcur). unfold reader_reset, impl_read_header.
  set (s := if is_eof (r_is r) then is_clear (r_is r) else r_is r).
  assert (Sf : is_fail s = false).
  { unfold s. destruct (is_eof (r_is r)) eqn:E; [reflexivity|]. destruct (is_fail (r_is r)); [|reflexivity].
    specialize (Hfe eq_refl). congruence. }
  assert (Sd : is_data s = F) by (unfold s; destruct (is_eof (r_is r)); exact HD).
  pose proof Hsh as (_ & _ & _ & H7 & Hsr & Hi & Hfm).
  destruct (read_header_ok xml s F (r_hdr r) (layout_of F) Sf Sd HF H7 Hsr) as (h & E & Hsh1 & Hv & Hpad).
  - now apply copies_fall_back.
  - exact Hi.
  - now right.
  - rewrite E. cbn [obind]. pose proof Hsh1 as (_ & _ & HC & _). rewrite HC.
    assert (SH : exists p, set_header (mkPoint (r_data r) h) h = Ok p /\ p_data p = r_data r).
    { unfold set_header. cbn [p_data p_hdr]. rewrite (shows_reclen F h Hsh1).
      destruct (Z.eqb_spec (zsum (r_data r)) 0) as [Z0|Z0].
      - eexists. split; [reflexivity|]. cbn [p_data]. rewrite (zsum_zero _ Hbd Z0), Hln. reflexivity.
      - rewrite (finite_same F h Hfin Hsh1).
        assert (EL : negb (f_reclen F =? Z.of_nat (length (r_data r))) = false).
        { rewrite Hln. destruct HF as (HB & _). pose proof (u_at_range F 105 2 HB). unfold f_reclen in *. lia. }
        rewrite EL. cbn [obind]. eexists. split; reflexivity. }
    destruct SH as (p & -> & Ep). cbn [obind]. eexists. split; [reflexivity|].
    unfold impl_reset, rinv. cbn [r_hdr r_is r_size r_recsize r_data r_current is_data is_fail is_eof].
    rewrite (shows_bytes F h HF Hsh1), (shows_npts F h Hsh1), Ep.
    split; [|split; [reflexivity|split; [reflexivity|exact Hv]]].
    split; [exact Hsh1|]. split; [rewrite Hv; now apply copies_snoc|].
    split; [reflexivity|]. split; [discriminate|]. repeat (split; [reflexivity || assumption|]). lia.
Qed.

(** ** one record *)
Lemma read_record_full F p d n : length d = n -> (0 < n)%nat -> (p + n <= length F)%nat ->
  read_record (at_pos F p) d n = Ok (slice F p n, at_pos F (p + n)).
Proof.
  intros Hd Hn HL. unfold read_record. destruct d as [|x d]; [cbn in Hd; lia|]. cbn [at_pos is_fail]. fold (at_pos F p).
  rewrite is_read_ok by lia. rewrite slice_length by lia.
  destruct (Nat.ltb_spec (length (x :: d)) n); [lia|].
  rewrite patch_full by (rewrite slice_length; lia). reflexivity.
Qed.

Lemma firstn_bytes_le (l : list Z) n : (length (firstn n l) <= n)%nat.
Proof. rewrite firstn_length. lia. Qed.

(** any read keeps the invariant *)
Lemma read_record_any s d n : length d = n -> (0 < n)%nat -> bytes_ok d -> bytes_ok (is_data s) ->
  (is_fail s = true -> is_eof s = true) ->
  read_record s d n = Throw ERuntime \/
  exists d1 s1, read_record s d n = Ok (d1, s1) /\ length d1 = n /\ bytes_ok d1 /\ is_data s1 = is_data s /\
    (is_fail s1 = true -> is_eof s1 = true).
Proof.
  intros Hd Hn Hb Hs Hfe. unfold read_record. destruct d as [|x d]; [cbn in Hd; lia|].
  destruct (is_fail s) eqn:Ef; [left; reflexivity|]. right.
  unfold is_read. rewrite Ef. rewrite orb_false_r.
  set (d0 := x :: d) in *.
  destruct (is_eof s) eqn:Ee.
  - destruct (Nat.ltb_spec (length d0) (length (@nil Z))) as [L|L]; [cbn in L; lia|].
    eexists _, _. split; [reflexivity|]. unfold patch. cbn [app List.length skipn is_data is_fail is_eof]. auto.
  - set (bs := firstn n (skipn (is_pos s) (is_data s))).
    assert (Lb : (length bs <= n)%nat) by apply firstn_bytes_le.
    assert (Bb : bytes_ok bs) by (apply bytes_firstn, bytes_skipn, Hs).
    destruct (Nat.ltb_spec (length bs) n) as [L|L]; destruct (Nat.ltb_spec (length d0) (length bs)) as [L2|L2]; try lia.
    + eexists _, _. split; [reflexivity|]. cbn [is_data is_fail is_eof]. unfold patch.
      rewrite app_length, skipn_length. split; [lia|]. split; [apply bytes_app; [exact Bb|apply bytes_skipn, Hb]|]. auto.
    + eexists _, _. split; [reflexivity|]. cbn [is_data is_fail is_eof]. unfold patch.
      rewrite app_length, skipn_length. split; [lia|]. split; [apply bytes_app; [exact Bb|apply bytes_skipn, Hb]|].
      split; [reflexivity|]. discriminate.
Qed.

Lemma rinv_pos_recsize F r : complete F -> rinv F r -> (0 < Z.to_nat (r_recsize r))%nat /\ length (r_data r) = Z.to_nat (r_recsize r).
Proof. intros (HC & _) (_ & _ & _ & _ & _ & Hrs & Hln & _). rewrite Hrs. lia. Qed.

Lemma rinv_stream F r s : rinv F r -> is_data s = F -> (is_fail s = true -> is_eof s = true) -> rinv F (rd_stream r s).
Proof. intros (A & B & C & D & E) Hs Hf. unfold rinv, rd_stream. cbn [rd_data rd_read rd_stream r_hdr r_is r_size r_recsize r_data r_current at_pos is_data is_fail is_eof fst snd p_data r_point]. tauto. Qed.

Lemma read_counted_inv F r : las_file F -> complete F -> rinv F r ->
  exists r1 o, read_counted r = (r1, o) /\ rinv F r1 /\ (o = Ok tt \/ o = Throw EOutOfRange).
Proof.
  intros HF HC Hi. destruct (rinv_pos_recsize F r HC Hi) as (Hp & Hl).
  pose proof Hi as (A & B & C & D & E & G & H & I & J).
  pose proof HF as (HB & _).
  unfold read_counted. destruct (read_record_any (r_is r) (r_data r) (Z.to_nat (r_recsize r)) Hl Hp I ltac:(rewrite C; exact HB) D)
    as [->|(d1 & s1 & -> & L1 & B1 & D1 & F1)].
  - eexists _, _. split; [reflexivity|]. split; [exact Hi|now right].
  - eexists _, _. split; [reflexivity|]. split; [|now left]. unfold rinv, rd_read. cbn [rd_data rd_read rd_stream r_hdr r_is r_size r_recsize r_data r_current at_pos is_data is_fail is_eof fst snd p_data r_point].
    rewrite D1. split; [exact A|]. split; [exact B|]. split; [exact C|]. split; [exact F1|]. split; [exact E|]. split; [exact G|].
    split; [rewrite L1, G; reflexivity|]. split; [exact B1|]. apply Z.mod_pos_bound. lia.
Qed.

Lemma is_seek_clean s pos : 0 <= pos -> is_seek (is_clear s) pos = at_pos (is_data s) (Z.to_nat pos).
Proof. intros H. rewrite is_seek_ok by (reflexivity || lia). reflexivity. Qed.

Lemma fields_nonneg F : bytes_ok F -> 0 <= f_doff F /\ 0 <= f_npts F < 2 ^ 32 /\ 0 <= f_reclen F < 2 ^ 16.
Proof.
  intros HB. pose proof (u_at_range F 96 4 HB). pose proof (u_at_range F 107 4 HB). pose proof (u_at_range F 105 2 HB).
  rewrite pow256_pow2 in *. unfold f_doff, f_npts, f_reclen. cbn in *. lia.
Qed.

(** every operation keeps the invariant and runs into no undefined behaviour *)
Lemma rop_inv_x xml F r o : las_file F -> reads_standard xml F -> finite_scaling F -> complete F -> rop_ok o -> rinv F r ->
  exists r1 a, rop_run xml r o = (r1, Ok a) /\ rinv F r1.
Proof.
  intros HF Hns Hfin HC Ho Hi. pose proof HF as (HB & _). destruct (fields_nonneg F HB) as (D0 & N0 & L0).
  pose proof Hi as (A & B & C & D & E & G & H & I & J).
  destruct o as [|n|n|]; cbn [rop_run rop_ok] in *.
  - unfold reader_next, impl_next.
    set (r0 := if r_current r =? 0 then rd_stream r (is_seek (is_clear (r_is r)) (h_doff (r_hdr r))) else r).
    assert (I0 : rinv F r0).
    { unfold r0. destruct (r_current r =? 0); [|exact Hi]. rewrite (shows_doff F _ A), is_seek_clean by lia. rewrite C.
      apply rinv_stream; [exact Hi|reflexivity|discriminate]. }
    destruct (Z.leb_spec (r_size r0) (r_current r0)).
    { eexists _, _. split; [reflexivity|exact I0]. }
    destruct (read_counted_inv F r0 HF HC I0) as (r1 & oo & -> & I1 & [-> | ->]).
    + unfold filtered_part, no_filter, no_transform. cbn [p_data r_point].
      eexists _, _. split; [reflexivity|]. unfold rd_data. cbn [fst]. exact I1.
    + eexists _, _. split; [reflexivity|exact I1].
  - unfold reader_at. destruct (Z.leb_spec (h_npts (r_hdr r)) n) as [L|L].
    { eexists _, _. split; [reflexivity|exact Hi]. }
    unfold impl_at. rewrite (shows_npts F _ A) in L. rewrite E.
    destruct (Z.eqb_spec (f_npts F) n); [lia|]. destruct (Z.ltb_spec (f_npts F) n); [lia|].
    rewrite (shows_reclen F _ A), (shows_doff F _ A), is_seek_clean, C by nia.
    destruct (rinv_pos_recsize F r HC Hi) as (Hp & Hl).
    set (s := at_pos F _).
    destruct (read_record_any s (r_data r) (Z.to_nat (r_recsize r)) Hl Hp I HB ltac:(discriminate)) as [->|(d1 & s1 & -> & L1 & B1 & D1 & F1)].
    + eexists _, _. split; [reflexivity|]. apply rinv_stream; [exact Hi|reflexivity|discriminate].
    + unfold no_transform. cbn [p_data r_point]. eexists _, _. split; [reflexivity|]. unfold rinv, rd_data, rd_read. cbn [rd_data rd_read rd_stream r_hdr r_is r_size r_recsize r_data r_current at_pos is_data is_fail is_eof fst snd p_data r_point].
      rewrite D1. split; [exact A|]. split; [exact B|]. split; [reflexivity|]. split; [exact F1|]. split; [exact E|]. split; [exact G|].
      split; [rewrite L1, G; reflexivity|]. split; [exact B1|exact J].
  - unfold reader_seek. rewrite E. destruct (Z.eqb_spec (f_npts F) n).
    { eexists _, _. split; [reflexivity|exact Hi]. }
    destruct (Z.ltb_spec (f_npts F) n).
    { eexists _, _. split; [reflexivity|exact Hi]. }
    rewrite (shows_reclen F _ A), (shows_doff F _ A), is_seek_clean, C by nia.
    eexists _, _. split; [reflexivity|]. unfold rinv. cbn [rd_data rd_read rd_stream r_hdr r_is r_size r_recsize r_data r_current at_pos is_data is_fail is_eof fst snd p_data r_point]. repeat (split; [assumption || reflexivity || discriminate|]).
    apply Z.mod_pos_bound. lia.
  - destruct (reset_ok_x xml F r HF Hns Hfin Hi) as (r1 & -> & I1 & _). eexists _, _. split; [reflexivity|exact I1].
Qed.

Lemma rops_inv_x xml F ops : forall r, las_file F -> reads_standard xml F -> finite_scaling F -> complete F -> Forall rop_ok ops -> rinv F r ->
  exists r1 obs, rops_run xml r ops = Ok (r1, obs) /\ rinv F r1.
Proof.
  induction ops as [|o ops IH]; intros r HF Hns Hfin HC Ho Hi; cbn [rops_run].
  - eauto.
  - inversion Ho; subst. destruct (rop_inv_x xml F r o HF Hns Hfin HC H1 Hi) as (r1 & a & -> & I1). cbn [obind].
    destruct (IH r1 HF Hns Hfin HC H2 I1) as (r2 & obs & -> & I2). cbn [obind]. eauto.
Qed.

(** random access *)
Lemma at_exact F r n : las_file F -> complete F -> rinv F r -> 0 <= n -> 
  exists r1, reader_at no_transform r n = (r1, if n <? f_npts F then Ok true else Throw EOutOfRange) /\
    r_data r1 = (if n <? f_npts F then file_record F n else r_data r) /\
    (f_npts F <= n -> r1 = r).
Proof.
  intros HF HC Hi Hn. pose proof HF as (HB & _). destruct (fields_nonneg F HB) as (D0 & N0 & L0).
  pose proof Hi as (A & B & C & D & E & G & H & I & J). unfold reader_at. rewrite (shows_npts F _ A).
  destruct (Z.leb_spec (f_npts F) n) as [L|L]; destruct (Z.ltb_spec n (f_npts F)) as [L2|L2]; try lia.
  { eexists. split; [reflexivity|]. auto. }
  unfold impl_at. rewrite E. destruct (Z.eqb_spec (f_npts F) n); [lia|]. destruct (Z.ltb_spec (f_npts F) n); [lia|].
  rewrite (shows_reclen F _ A), (shows_doff F _ A), is_seek_clean, C by nia.
  destruct (rinv_pos_recsize F r HC Hi) as (Hp & Hl). destruct HC as (HC1 & HC2). specialize (HC2 ltac:(lia)).
  assert (M : (n + 1) * f_reclen F <= f_npts F * f_reclen F) by (apply Z.mul_le_mono_nonneg_r; lia).
  assert (M0 : 0 <= n * f_reclen F) by (apply Z.mul_nonneg_nonneg; lia).
  rewrite read_record_full; [|exact Hl|exact Hp|rewrite G; lia].
  unfold no_transform. cbn [p_data r_point]. eexists. split; [reflexivity|]. split; [|lia].
  cbn [rd_data rd_read rd_stream r_hdr r_is r_size r_recsize r_data r_current at_pos is_data is_fail is_eof fst snd p_data r_point]. unfold file_record. rewrite G, (Z.add_comm (n * f_reclen F)). reflexivity.
Qed.

(** the cursor *)
Definition rcur (F : list Z) (r : reader) (c : Z) : Prop :=
  rinv F r /\ r_current r = c /\ 0 <= c <= f_npts F /\
  (0 < c -> c < f_npts F -> r_is r = at_pos F (Z.to_nat (f_doff F + c * f_reclen F))).

Lemma rcur_step_x xml F r c o : las_file F -> reads_standard xml F -> finite_scaling F -> complete F -> rop_ok o -> is_at o = false ->
  rcur F r c ->
  exists r1, rop_run xml r o = (r1, Ok (snd (cur_step F (c, r_data r) o))) /\
    rcur F r1 (fst (fst (cur_step F (c, r_data r) o))) /\ r_data r1 = snd (fst (cur_step F (c, r_data r) o)).
Proof.
  intros HF Hns Hfin HC Ho Hat (Hi & Ec & Hc & Hs). pose proof HF as (HB & _). destruct (fields_nonneg F HB) as (D0 & N0 & L0).
  pose proof Hi as (A & B & C & D & E & G & H & I & J). pose proof HC as (HC1 & HC2).
  destruct o as [|n|n|]; cbn [rop_run cur_step is_at rop_ok] in *; try discriminate.
  - unfold reader_next, impl_next.
    set (r0 := if r_current r =? 0 then rd_stream r (is_seek (is_clear (r_is r)) (h_doff (r_hdr r))) else r).
    assert (I0 : rinv F r0 /\ r_current r0 = c /\ r_data r0 = r_data r /\
      (c < f_npts F -> r_is r0 = at_pos F (Z.to_nat (f_doff F + c * f_reclen F)))).
    { unfold r0. rewrite Ec. destruct (Z.eqb_spec c 0) as [Z0|Z0].
      - rewrite (shows_doff F _ A), is_seek_clean by lia. rewrite C.
        split; [apply rinv_stream; [exact Hi|reflexivity|discriminate]|]. cbn [rd_data rd_read rd_stream r_hdr r_is r_size r_recsize r_data r_current at_pos is_data is_fail is_eof fst snd p_data r_point]. split; [exact Ec|]. split; [reflexivity|].
        intros _. rewrite Z0, Z.mul_0_l, Z.add_0_r. reflexivity.
      - split; [exact Hi|]. split; [exact Ec|]. split; [reflexivity|]. intros. apply Hs; lia. }
    destruct I0 as (I0 & Ec0 & Ed0 & S0). pose proof I0 as (A0 & B0 & C0 & D0' & E0 & G0 & H0 & Ib0 & J0).
    rewrite E0, Ec0. destruct (Z.leb_spec (f_npts F) c) as [L|L]; destruct (Z.ltb_spec c (f_npts F)) as [L2|L2]; try lia.
    { eexists. split; [reflexivity|]. cbn [fst snd]. split; [|exact Ed0]. split; [exact I0|]. split; [exact Ec0|]. split; [lia|]. lia. }
    specialize (HC2 ltac:(lia)). unfold read_counted. rewrite (S0 L2), G0.
    assert (M : (c + 1) * f_reclen F <= f_npts F * f_reclen F) by (apply Z.mul_le_mono_nonneg_r; lia).
    assert (M0 : 0 <= c * f_reclen F) by (apply Z.mul_nonneg_nonneg; lia).
    rewrite read_record_full; [|rewrite H0; reflexivity|lia|lia].
    unfold filtered_part, no_filter, no_transform. cbn [p_data r_point fst snd].
    eexists. split; [reflexivity|]. split; [|reflexivity].
    unfold rcur, rinv. cbn [rd_data rd_read rd_stream r_hdr r_is r_size r_recsize r_data r_current at_pos is_data is_fail is_eof fst snd p_data r_point]. rewrite Ec0, Z.mod_small by lia.
    split; [|split; [reflexivity|split; [lia|]]].
    + split; [exact A0|]. split; [exact B0|]. split; [reflexivity|]. split; [discriminate|]. split; [exact E0|]. split; [exact G0|].
      split; [apply slice_length; lia|]. split; [apply slice_bytes, HB|lia].
    + intros _ _. f_equal. rewrite <- Z2Nat.inj_add by lia. f_equal. lia.
  - unfold reader_seek. rewrite E. destruct (Z.eqb_spec (f_npts F) n) as [En|En].
    { destruct (Z.ltb_spec n (f_npts F)); [lia|]. destruct (Z.eqb_spec n (f_npts F)); [|lia].
      eexists. split; [reflexivity|]. cbn [fst snd]. split; [|reflexivity]. split; [exact Hi|]. auto. }
    destruct (Z.ltb_spec (f_npts F) n) as [L|L].
    { destruct (Z.ltb_spec n (f_npts F)); [lia|]. destruct (Z.eqb_spec n (f_npts F)); [lia|].
      eexists. split; [reflexivity|]. cbn [fst snd]. split; [|reflexivity]. split; [exact Hi|]. auto. }
    destruct (Z.ltb_spec n (f_npts F)); [|lia].
    rewrite (shows_reclen F _ A), (shows_doff F _ A), is_seek_clean, C by nia.
    eexists. split; [reflexivity|]. cbn [fst snd r_data]. split; [|reflexivity].
    unfold rcur, rinv. cbn [rd_data rd_read rd_stream r_hdr r_is r_size r_recsize r_data r_current at_pos is_data is_fail is_eof fst snd p_data r_point]. rewrite Z.mod_small by lia. split; [|split; [reflexivity|split; [lia|]]].
    + repeat (split; [assumption || reflexivity || discriminate|]). lia.
    + intros. f_equal. f_equal. lia.
  - destruct (reset_ok_x xml F r HF Hns Hfin Hi) as (r1 & -> & I1 & Ec1 & Ed1 & _).
    eexists. split; [reflexivity|]. cbn [fst snd]. split; [|exact Ed1]. split; [exact I1|]. split; [exact Ec1|]. split; [lia|]. lia.
Qed.

Lemma rcur_run_x xml F ops : forall r c, las_file F -> reads_standard xml F -> finite_scaling F -> complete F -> Forall rop_ok ops ->
  Forall (fun o => is_at o = false) ops -> rcur F r c ->
  exists r1, rops_run xml r ops = Ok (r1, cur_run F (c, r_data r) ops).
Proof.
  induction ops as [|o ops IH]; intros r c HF Hns Hfin HC Ho Ha Hi; cbn [rops_run cur_run].
  - eauto.
  - inversion Ho; subst. inversion Ha; subst.
    destruct (rcur_step_x xml F r c o HF Hns Hfin HC H1 H3 Hi) as (r1 & -> & I1 & Ed). cbn [obind].
    destruct (cur_step F (c, r_data r) o) as [[c1 p1] a]. cbn [fst snd] in *.
    destruct (IH r1 c1 HF Hns Hfin HC H2 H4 I1) as (r2 & ->). cbn [obind]. rewrite Ed. eauto.
Qed.

(** ** Files without schema VLR *)
Lemma open_ok xml doy year F : las_file F -> no_schema_vlr F ->
  exists r, reader_open xml doy year F = Ok r /\ rinv F r /\ r_current r = 0 /\
    r_data r = repeat 0 (Z.to_nat (f_reclen F)) /\ h_vlrs (r_hdr r) = file_vlrs F /\ r_is r = at_pos F 0 /\
    header_wf (r_hdr r).
Proof. intros HF Hns. exact (open_ok_x xml doy year F HF (plain_standard xml F Hns)). Qed.
Lemma open_pad xml doy year F : las_file F -> no_schema_vlr F ->
  exists r, reader_open xml doy year F = Ok r /\
    forall b, vlr_block_size (r_hdr r) = Ok b -> h_pad (r_hdr r) = (h_doff (r_hdr r) - (h_hsize (r_hdr r) + b)) mod 2 ^ 32.
Proof. intros HF Hns. exact (open_pad_x xml doy year F HF (plain_standard xml F Hns)). Qed.
Lemma reset_ok xml F r : las_file F -> no_schema_vlr F -> finite_scaling F -> rinv F r ->
  exists r1, reader_reset xml r = Ok r1 /\ rinv F r1 /\ r_current r1 = 0 /\ r_data r1 = r_data r /\
    h_vlrs (r_hdr r1) = h_vlrs (r_hdr r) ++ file_vlrs F.
Proof. intros HF Hns. exact (reset_ok_x xml F r HF (plain_standard xml F Hns)). Qed.
Lemma rop_inv xml F r o : las_file F -> no_schema_vlr F -> finite_scaling F -> complete F -> rop_ok o -> rinv F r ->
  exists r1 a, rop_run xml r o = (r1, Ok a) /\ rinv F r1.
Proof. intros HF Hns. exact (rop_inv_x xml F r o HF (plain_standard xml F Hns)). Qed.
Lemma rcur_step xml F r c o : las_file F -> no_schema_vlr F -> finite_scaling F -> complete F -> rop_ok o -> is_at o = false ->
  rcur F r c ->
  exists r1, rop_run xml r o = (r1, Ok (snd (cur_step F (c, r_data r) o))) /\
    rcur F r1 (fst (fst (cur_step F (c, r_data r) o))) /\ r_data r1 = snd (fst (cur_step F (c, r_data r) o)).
Proof. intros HF Hns. exact (rcur_step_x xml F r c o HF (plain_standard xml F Hns)). Qed.
Lemma rops_inv xml F ops : forall r, las_file F -> no_schema_vlr F -> finite_scaling F -> complete F -> Forall rop_ok ops -> rinv F r ->
  exists r1 obs, rops_run xml r ops = Ok (r1, obs) /\ rinv F r1.
Proof. intros r HF Hns. exact (rops_inv_x xml F ops r HF (plain_standard xml F Hns)). Qed.
Lemma rcur_run xml F ops : forall r c, las_file F -> no_schema_vlr F -> finite_scaling F -> complete F -> Forall rop_ok ops ->
  Forall (fun o => is_at o = false) ops -> rcur F r c ->
  exists r1, rops_run xml r ops = Ok (r1, cur_run F (c, r_data r) ops).
Proof. intros r c HF Hns. exact (rcur_run_x xml F ops r c HF (plain_standard xml F Hns)). Qed.

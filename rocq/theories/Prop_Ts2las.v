(** C67: ts2las, from the bytes of a TerraSolid file to the bytes of the LAS file.

    Vocabulary: Ts2las_Spec.v (byte layout of .bin files, [las_record]: the LAS record
    each of their points stands for), IO_Spec.v ([u_at]), Reader_Spec.v ([file_record]). *)
From Coq Require Import ZArith List Bool String Lia.
Import ListNotations.
From Verif Require Import Outcome Bytes Float64 CStr Vlr_Model Schema_Model Header_Model Point_Model Stream_Model Stream_Proofs Writer_Model Writer_Api Writer_Append Writer_File Writer_RT
  Schema_Proofs IO_Spec Reader_Spec IO_Samples IO_Round CApi_Safe CApiW_Proofs Reader_Proofs Ts2las_Model Ts2las_Spec Ts2las_Proofs.
Local Open Scope Z_scope.
Local Notation length := List.length (only parsing).

Lemma ts2las_steps sv doy year B w F : bin_file B -> forall h, create_header doy year (slice B 0 56) = Ok h -> 
  (let! v := writer_new sv (os_open []) h in write_scans (slice B 0 56) (at_pos B 56) v) = Ok w -> writer_close w = Ok F -> ts2las sv doy year B = Ok (0, F).
Proof.
  intros HB h E1 E2 E3. unfold ts2las. rewrite (header_read B HB), E1. cbn [obind]. apply obind_ok in E2 as (v & -> & E2). cbn [obind]. rewrite E2. cbn [obind]. rewrite E3. reflexivity.
Qed.
Lemma count_nat B : bin_file B -> Z.to_nat (hdr_count (slice B 0 56) mod 2 ^ 64) = Z.to_nat (bin_count B).
Proof.
  intros HB. rewrite (hb_count B HB). pose proof HB as (_ & _ & _ & _ & _ & C). pose proof (r32 B HB 16) as R. unfold bin_count in *. rewrite Z.mod_small; [reflexivity|]. change (2 ^ 64) with 18446744073709551616. change (2 ^ 31) with 2147483648 in C. lia.
Qed.
Lemma zeros_core B : bin_file B -> length (repeat 0 (if is_pnt (slice B 0 56) then 20 else 16)) = bin_core B.
Proof. intros HB. rewrite repeat_length, (hb_pnt B HB). reflexivity. Qed.

(** every record the program writes is that of the specification *)
Lemma ts2las_writes sv doy year B n ps : bin_file B -> Z.to_nat (bin_count B) = n -> (n = length ps) ->
  Forall (fun d => Z.of_nat (length d) = las_length (bin_has_time B) (bin_has_color B)) ps ->
  (forall w w', get_format (w_hdr w) = las_format (bin_has_time B) (bin_has_color B) -> get_record_length (w_hdr w) = las_length (bin_has_time B) (bin_has_color B) ->
     write_points w (map (fun d => mkPoint d (w_hdr w)) ps) = Ok w' -> write_scans (slice B 0 56) (at_pos B 56) w = Ok w') ->
  exists F, ts2las sv doy year B = Ok (0, F) /\ u_at F 107 4 = bin_count B /\ u_at F 24 1 = 1 /\ u_at F 25 1 = 2 /\
    u_at F 104 1 = las_format (bin_has_time B) (bin_has_color B) /\ f_reclen F = las_length (bin_has_time B) (bin_has_color B) /\
    (forall k, (k < 3)%nat -> u_at F (131 + 8 * k) 8 = f64_bits (f64_div f64_one (f64_of_Z (bin_units B)))) /\
    (forall k, (k < 3)%nat -> u_at F (155 + 8 * k) 8 = f64_bits (f64_mul (f64_opp (bin_origin B k)) (f64_div f64_one (f64_of_Z (bin_units B))))) /\
    u_at F 100 4 = 0 /\ (forall i d, nth_error ps i = Some d -> file_record F (Z.of_nat i) = d).
Proof.
  intros HB HN LP HL HW. destruct (create_header_ok B HB sv doy year) as (h & E & HF & FM & RL & SG & VJ & VN & SC & OF & WV).
  set (h1 := fresh_header sv h (fresh_doff sv h)).
  pose proof HB as (_ & _ & _ & _ & _ & C). pose proof (r32 B HB 16) as R. fold (bin_count B) in R.
  pose proof (writer_new_fresh sv h HF) as WN. set (w := mkWriter _ _ 0) in WN.
  set (qs := map (fun d => mkPoint d (w_hdr w)) ps).
  assert (FMT : 0 <= get_format h <= 3 /\ 20 <= get_record_length h < 2 ^ 16).
  { rewrite FM, RL. unfold las_length. destruct (bin_has_time B), (bin_has_color B); cbn [las_format]; lia. }
  assert (FIT : Forall (point_fits (get_record_length h)) qs).
  { unfold qs. apply Forall_map. apply Forall_impl with (2 := HL). intros d Hd. split; cbn [p_data]; [rewrite RL; lia|]. intros ->. cbn [List.length] in Hd. rewrite <- RL in Hd. lia. }
  assert (LQ : length qs = length ps) by apply map_length.
  assert (NN : Z.of_nat (length qs) < 2 ^ 32). { rewrite LQ, <- LP, <- HN, Z2Nat.id by lia. change (2 ^ 31) with 2147483648 in C. lia. }
  pose proof (write_file_image sv h qs HF FIT NN) as W. unfold write_file, write_session in W. rewrite WN in W. cbn [obind] in W. apply obind_ok in W as (w' & W1 & W2).
  set (F := file_image sv h qs) in *.
  destruct (written_fields sv h qs HF ltac:(lia) NN) as (_ & E24 & E25 & _ & _ & E100 & E104 & E105 & E107 & ESC & EOF). fold F in E24, E25, E100, E104, E105, E107, ESC, EOF.
  exists F. split.
  { apply (ts2las_steps sv doy year B w' F HB h E); [|exact W2]. rewrite WN. cbn [obind]. apply HW; [exact FM|exact RL|exact W1]. }
  rewrite SC in ESC. rewrite OF in EOF. unfold bits3 in ESC, EOF. cbn [x_of y_of z_of fst snd] in ESC, EOF.
  split; [rewrite E107, LQ, <- LP, <- HN; apply Z2Nat.id; lia|]. split; [now rewrite E24|]. split; [now rewrite E25|]. split; [now rewrite E104|]. split; [unfold f_reclen; now rewrite E105|].
  split. { intros k K. pose proof (f_equal (fun t => fst (fst t)) ESC) as X0. pose proof (f_equal (fun t => snd (fst t)) ESC) as X1. pose proof (f_equal snd ESC) as X2. cbn [fst snd] in X0, X1, X2.
    destruct k as [|[|[|k]]]; [exact X0|exact X1|exact X2|lia]. }
  split. { intros k K. pose proof (f_equal (fun t => fst (fst t)) EOF) as X0. pose proof (f_equal (fun t => snd (fst t)) EOF) as X1. pose proof (f_equal snd EOF) as X2. cbn [fst snd] in X0, X1, X2.
    destruct k as [|[|[|k]]]; [exact X0|exact X1|exact X2|lia]. }
  split; [rewrite E100, WV; reflexivity|].
  intros i d D. assert (Q : nth_error qs i = Some (mkPoint d (w_hdr w))) by (unfold qs; rewrite nth_error_map, D; reflexivity).
  unfold F. rewrite (written_record sv h qs i _ HF ltac:(lia) NN FIT ltac:(lia) Q). unfold record_of. cbn [p_data]. apply firstn_all2.
  rewrite Forall_forall in HL. specialize (HL d (nth_error_In _ _ D)). rewrite RL. lia.
Qed.

(** A complete .bin file gives a LAS 1.2 file with as many points, in the same order,
    each the record [las_record] of its bytes; scale 1/Units, offset -Org*scale. *)
Theorem C67_points : forall sv doy year B, bin_file B -> bin_complete B ->
  exists F, ts2las sv doy year B = Ok (0, F) /\ u_at F 107 4 = bin_count B /\ u_at F 24 1 = 1 /\ u_at F 25 1 = 2 /\
    u_at F 104 1 = las_format (bin_has_time B) (bin_has_color B) /\ f_reclen F = las_length (bin_has_time B) (bin_has_color B) /\
    (forall k, (k < 3)%nat -> u_at F (131 + 8 * k) 8 = f64_bits (f64_div f64_one (f64_of_Z (bin_units B)))) /\
    (forall k, (k < 3)%nat -> u_at F (155 + 8 * k) 8 = f64_bits (f64_mul (f64_opp (bin_origin B k)) (f64_div f64_one (f64_of_Z (bin_units B))))) /\
    u_at F 100 4 = 0 /\ (forall i, (i < Z.to_nat (bin_count B))%nat -> file_record F (Z.of_nat i) = las_record B i).
Proof.
  intros sv doy year B HB HC. unfold bin_complete in HC. set (n := Z.to_nat (bin_count B)) in *. pose proof (core_le B) as CL.
  destruct (ts2las_writes sv doy year B n (map (las_record B) (seq 0 n)) HB eq_refl) as (F & A & A1 & A2 & A3 & A4 & A5 & A6 & A7 & A8 & A9).
  - now rewrite map_length, seq_length.
  - apply Forall_map, Forall_forall. intros i Hi. apply in_seq in Hi. unfold las_record. apply las_record_length; [exact HB|]. nia.
  - intros w w' FM RL W. unfold write_scans. rewrite (count_nat B HB). fold n. rewrite map_map in W.
    pose proof (scan_loop_more B HB 0 n 0 w w' (repeat 0 (if is_pnt (slice B 0 56) then 20 else 16)) FM RL HC (zeros_core B HB) W) as X. rewrite !Nat.add_0_r in X. exact X.
  - exists F. repeat (split; [assumption|]). intros i Hi. apply A9. rewrite nth_error_map. rewrite (nth_error_nth' (seq 0 n) 0%nat) by (rewrite seq_length; exact Hi). rewrite seq_nth by exact Hi. reflexivity.
Qed.
Print Assumptions C67_points.

(** A file of at least 56 bytes that is not a .bin file of a known version is refused. *)
Theorem C67_refused : forall sv doy year B, bytes_ok B -> (56 <= length B)%nat ->
  u_at B 8 4 <> 970401 \/ slice B 12 4 <> str "CXYZ" \/ ~ (u_at B 4 4 = 970404 \/ u_at B 4 4 = 20010129 \/ u_at B 4 4 = 20010712 \/ 20020715 <= u_at B 4 4 < 20051231) ->
  ts2las sv doy year B = Ok (1, []).
Proof.
  intros sv doy year B BB L H. unfold ts2las, read_scan_header. change (is_open B) with (at_pos B 0). rewrite (read_n_at B 0 (repeat 0 56) 56 (repeat_length _ _) L).
  assert (R : forall o, 0 <= u_at B o 4 < 2 ^ 32). { intros o. pose proof (Reader_Proofs.u_at_range B o 4 BB) as X. change (pow256 4) with (2 ^ 32) in X. exact X. }
  assert (SM : forall o k, (o + 4 <= 56)%nat -> 0 <= k < 2 ^ 31 -> (smember (slice B 0 56) o =? k) = (u_at B o 4 =? k)).
  { intros o k Ho Hk. unfold smember. rewrite member_at by exact Ho. apply signed_eq; [apply R|exact Hk]. }
  replace ((hdr_tunniste (slice B 0 56) =? 970401) && zlist_eqb (hdr_magic (slice B 0 56)) (str "CXYZ") && known_version (hdr_version (slice B 0 56))) with false; [reflexivity|]. symmetry.
  unfold hdr_tunniste, hdr_magic, hdr_version. rewrite SM by lia. fold (slice (slice B 0 56) 12 4). rewrite slice_slice by lia. change (0 + 12)%nat with 12%nat.
  rewrite !andb_false_iff. destruct H as [H|[H|H]].
  - left. left. now apply Z.eqb_neq.
  - left. right. destruct (zlist_eqb (slice B 12 4) (str "CXYZ")) eqn:E; [|reflexivity]. apply (proj1 (zlist_eqb_spec _ _)) in E. contradiction.
  - right. unfold known_version. rewrite !SM by lia. unfold smember. rewrite member_at by lia. rewrite !orb_false_iff, andb_false_iff, !Z.eqb_neq, !Z.ltb_ge. pose proof (R 4%nat) as R4.
    unfold to_signed. rewrite (Z.mod_small _ _ R4). change (2 ^ (32 - 1)) with 2147483648. change (2 ^ 32) with 4294967296 in *. destruct (Z.ltb_spec (u_at B 4 4) 2147483648); lia.
Qed.
Print Assumptions C67_refused.

(** A .bin file from which more than its last point is missing ends the program with an
    exception: the points that are there are not kept. *)
Theorem C67_truncated_refuted : forall sv doy year B, bin_file B -> (length B + bin_record B < 56 + Z.to_nat (bin_count B) * bin_record B)%nat ->
  ts2las sv doy year B = Throw ERuntime.
Proof.
  intros sv doy year B HB L. destruct (create_header_ok B HB sv doy year) as (h & E & HF & FM & RL & _).
  unfold ts2las. rewrite (header_read B HB), E. cbn [obind]. rewrite (writer_new_fresh sv h HF). cbn [obind].
  unfold write_scans. rewrite (count_nat B HB). set (w := mkWriter _ _ 0).
  pose proof (scan_loop_short B HB (Z.to_nat (bin_count B)) 0 w (repeat 0 (if is_pnt (slice B 0 56) then 20 else 16)) FM RL) as X. cbn [Nat.mul] in X. rewrite Nat.add_0_r in X. rewrite X; [reflexivity|apply HB|exact L|apply zeros_core, HB].
Qed.
Print Assumptions C67_truncated_refuted.

(** A .bin file without time and colour from which exactly the last point is missing
    gives, without an error, a file in which the point before it is there twice. *)
Theorem C67_last_point_refuted : forall sv doy year B, bin_file B -> bin_has_time B = false -> bin_has_color B = false -> 2 <= bin_count B ->
  (length B + bin_record B = 56 + Z.to_nat (bin_count B) * bin_record B)%nat ->
  exists F, ts2las sv doy year B = Ok (0, F) /\ u_at F 107 4 = bin_count B /\
    file_record F (bin_count B - 1) = las_record B (Z.to_nat (bin_count B) - 2) /\ file_record F (bin_count B - 2) = las_record B (Z.to_nat (bin_count B) - 2).
Proof.
  intros sv doy year B HB HT HC HN L.
  assert (exists m, Z.to_nat (bin_count B) = S (S m)) as (m & EM) by (exists (Z.to_nat (bin_count B) - 2)%nat; lia).
  assert (BR : bin_record B = bin_core B) by (unfold bin_record; rewrite HT, HC, !Nat.add_0_r; reflexivity).
  rewrite EM in L |- *. replace (S (S m) - 2)%nat with m by lia. assert (LB : length B = (56 + S m * bin_record B)%nat) by (cbn [Nat.mul] in *; lia).
  destruct (ts2las_writes sv doy year B (S (S m)) (map (las_record B) (seq 0 (S m)) ++ [las_record B m]) HB EM) as (F & A & A1 & _ & _ & _ & _ & _ & _ & _ & A9).
  - rewrite app_length, map_length, seq_length. cbn [List.length]. lia.
  - apply Forall_app. split.
    + apply Forall_map, Forall_forall. intros i Hi. apply in_seq in Hi. unfold las_record. apply las_record_length; [exact HB|]. rewrite LB, <- BR. nia.
    + constructor; [|constructor]. unfold las_record. apply las_record_length; [exact HB|]. rewrite LB, <- BR. cbn [Nat.mul]. lia.
  - intros w w' FM RL W. unfold write_scans. rewrite (count_nat B HB), EM. rewrite map_app, map_map in W.
    assert (WA : forall a b v, write_points v (a ++ b) = (let! v1 := write_points v a in write_points v1 b)).
    { induction a as [|x a IH]; intros b v; [reflexivity|]. cbn [app write_points]. destruct (write_point v x); cbn [obind]; [apply IH|reflexivity|reflexivity]. }
    rewrite WA in W. apply obind_ok in W as (w1 & W1 & W2). replace (S (S m)) with (S m + 1)%nat by lia.
    pose proof (scan_loop_more B HB 1 (S m) 0 w w1 (repeat 0 (if is_pnt (slice B 0 56) then 20 else 16)) FM RL ltac:(lia) (zeros_core B HB) W1) as X. change (56 + 0 * bin_record B)%nat with 56%nat in X. change (0 + S m)%nat with (S m) in X. rewrite <- LB in X. rewrite X. clear X.
    assert (WH : w_hdr w1 = w_hdr w). { clear - W1. revert w W1. generalize (seq 0 (S m)). intros l w. generalize (w_hdr w) at 1. intros hh. revert w. induction l as [|x l IH]; intros w W1; cbn [map write_points] in W1; [apply Ok_inj in W1; now subst|]. apply obind_ok in W1 as (v & V & W1). rewrite (IH _ W1). eapply write_point_hdr. exact V. }
    cbn [map write_points] in W2. apply obind_ok in W2 as (w2 & W2 & W3). apply Ok_inj in W3. subst w2.
    change (kept B 0 (S m) (repeat 0 (if is_pnt (slice B 0 56) then 20 else 16))) with (slice B (56 + m * bin_record B) (bin_core B)).
    cbn [scan_loop]. rewrite (one_scan_nothing B HB w1 (56 + m * bin_record B) HT HC); [unfold las_record in W2; rewrite WH, W2; reflexivity|rewrite WH, RL, HT, HC; reflexivity|rewrite LB, <- BR; cbn [Nat.mul]; lia].
  - exists F. split; [exact A|]. split; [exact A1|]. split.
    + replace (bin_count B - 1) with (Z.of_nat (S m)) by lia. apply A9. rewrite nth_error_app2 by (rewrite map_length, seq_length; lia). rewrite map_length, seq_length, Nat.sub_diag. reflexivity.
    + replace (bin_count B - 2) with (Z.of_nat m) by lia. apply A9. rewrite nth_error_app1 by (rewrite map_length, seq_length; lia). rewrite nth_error_map. rewrite (nth_error_nth' (seq 0 (S m)) 0%nat) by (rewrite seq_length; lia). rewrite seq_nth by lia. reflexivity.
Qed.
Print Assumptions C67_last_point_refuted.

(** ** the hypotheses are met *)
Definition bin_head (version n time color : Z) : list Z :=
  le_enc 4 56 ++ le_enc 4 version ++ le_enc 4 970401 ++ str "CXYZ" ++ le_enc 4 n ++ le_enc 4 100 ++
  le_enc 8 4636737291354636288 ++ le_enc 8 0 ++ le_enc 8 0 ++ le_enc 4 time ++ le_enc 4 color.
(** two long records with time and colour: class 2, echo 3, intensity 500 *)
Definition full_bin : list Z :=
  bin_head 20020715 2 1 1 ++
  (le_enc 4 1000 ++ le_enc 4 2000 ++ le_enc 4 (2 ^ 32 - 7) ++ [2; 3; 0; 0] ++ le_enc 2 12 ++ le_enc 2 500 ++ le_enc 4 5000 ++ [10; 20; 30; 0]) ++
  (le_enc 4 1001 ++ le_enc 4 2001 ++ le_enc 4 9 ++ [5; 0; 0; 0] ++ le_enc 2 12 ++ le_enc 2 501 ++ le_enc 4 5001 ++ [11; 21; 31; 0]).
Definition bin_fileb (B : list Z) : bool :=
  bytes_okb B && (56 <=? length B)%nat && (u_at B 8 4 =? 970401) && zlist_eqb (slice B 12 4) (str "CXYZ") && (20020715 <=? bin_version B) && (bin_version B <? 20051231) && (bin_count B <? 2 ^ 31).
Lemma bin_fileb_ok B : bin_fileb B = true -> bin_file B.
Proof.
  unfold bin_fileb. rewrite !andb_true_iff, Nat.leb_le, Z.eqb_eq, !Z.ltb_lt, Z.leb_le. intros ((((((A & L) & C) & D) & E) & G) & K). apply (proj1 (zlist_eqb_spec _ _)) in D.
  split; [now apply bytes_okb_ok|]. split; [exact L|]. split; [exact C|]. split; [exact D|]. split; [auto|exact K].
Qed.
Example full_bin_ok : bin_file full_bin /\ bin_complete full_bin.
Proof. split; [apply bin_fileb_ok; vm_compute; reflexivity|]. unfold bin_complete. apply Nat.leb_le. vm_compute. reflexivity. Qed.
(** the first point of that file: return 2 of 2, class 2, red 10, green 30, blue 20 *)
Example full_bin_first : firstn 20 (las_record full_bin 0) = le_enc 4 1000 ++ le_enc 4 2000 ++ le_enc 4 (-7) ++ le_enc 2 500 ++ [2 + 8 * 2; 2; 0; 0; 0; 0] /\
  skipn 28 (las_record full_bin 0) = le_enc 2 10 ++ le_enc 2 30 ++ le_enc 2 20.
Proof. split; reflexivity. Qed.
Example C67_instance : exists F, ts2las no_sv 1 2012 full_bin = Ok (0, F) /\ u_at F 107 4 = 2 /\ u_at F 104 1 = 3 /\ file_record F 1 = las_record full_bin 1.
Proof.
  destruct full_bin_ok as (A & C). destruct (C67_points no_sv 1 2012 full_bin A C) as (F & E & E1 & _ & _ & E2 & _ & _ & _ & _ & R). exists F. split; [exact E|]. split; [exact E1|]. split; [exact E2|]. apply (R 1%nat). vm_compute. repeat constructor.
Qed.
(** three short records declared, two and one of them there *)
Definition short_rec (x : Z) : list Z := [2; 0] ++ le_enc 2 16884 ++ le_enc 4 x ++ le_enc 4 0 ++ le_enc 4 0.
Definition short_bin (k : nat) : list Z := bin_head 20021111 3 0 0 ++ List.concat (map (fun i => short_rec (Z.of_nat i)) (seq 0 k)).
Example C67_truncated_instance : ts2las no_sv 1 2012 (short_bin 1) = Throw ERuntime.
Proof. apply C67_truncated_refuted; [apply bin_fileb_ok; vm_compute; reflexivity|]. apply Nat.ltb_lt. vm_compute. reflexivity. Qed.
Example C67_last_point_instance : exists F, ts2las no_sv 1 2012 (short_bin 2) = Ok (0, F) /\ u_at F 107 4 = 3 /\ file_record F 2 = file_record F 1.
Proof.
  destruct (C67_last_point_refuted no_sv 1 2012 (short_bin 2)) as (F & E & E1 & E2 & E3).
  - apply bin_fileb_ok. vm_compute. reflexivity.
  - vm_compute. reflexivity.
  - vm_compute. reflexivity.
  - vm_compute. discriminate.
  - apply Nat.eqb_eq. vm_compute. reflexivity.
  - exists F. split; [exact E|]. split; [exact E1|]. etransitivity; [exact E2|]. symmetry. exact E3.
Qed.

(** Point count field, writing the header again, acceptance of headers. *)
From Coq Require Import ZArith List Bool Lia String.
From Coq Require Import ZifyBool ZifyNat.
Import ListNotations.
From Verif Require Import Outcome Bytes Float64 Float64_Proofs CStr Vlr_Model Schema_Model Schema_Spec Schema_Api Schema_Proofs
  Header_Model Point_Model Stream_Model Stream_Proofs Writer_Model IO_Spec Writer_Api Writer_Proofs Writer_File Writer_V10
  Reader_Model Reader_Proofs Reader_Vlrs Reader_Open Reader_Spec Reader_Api Reader_Hist Writer_RT Writer_Append IO_Round.
Local Open Scope Z_scope.
Local Notation length := List.length (only parsing).

(** ** point count *)
Lemma update_count_ok w c : os_fail (w_os w) = false -> (111 <= length (os_data (w_os w)))%nat ->
  let v := if c =? 0 then w_count w else c in
  exists w', update_point_count w c = Ok w' /\
    os_data (w_os w') = firstn 107 (os_data (w_os w)) ++ le_enc 4 v ++ skipn 111 (os_data (w_os w)) /\
    os_pos (w_os w') = 111 /\ w_count w' = w_count w /\ w_hdr w' = set_point_count (w_hdr w) v.
Proof.
  intros Hf HL v. unfold update_point_count. fold v. rewrite Hf.
  unfold os_write, os_seek. rewrite Hf. change (107 <? 0) with false. cbn [obind].
  cbn [os_fail os_data os_pos]. eexists. split; [reflexivity|]. cbn [w_os w_count w_hdr os_data os_pos].
  assert (L4 : length (le4 v) = 4%nat) by apply le_enc_length.
  split; [|split; [rewrite L4; reflexivity|split; reflexivity]].
  unfold file_write. destruct (le4 v) as [|x l] eqn:E; [discriminate|]. rewrite <- E. rewrite ?L4.
  change (Z.to_nat 107) with 107%nat. replace (107 - length (os_data (w_os w)))%nat with 0%nat by lia. reflexivity.
Qed.

(** ** WriteHeader called again after points were written *)
Lemma write_header_again sv F pos h c : (227 <= length F)%nat -> header_wf h ->
  writer_write_header sv (mkWriter (os_at F pos) h c) =
  Ok (mkWriter (os_at (hdr_bytes h ++ skipn 227 F) (if h_npts h =? 0 then Z.to_nat (h_doff h) else length F)) h (h_npts h)).
Proof.
  intros HL HW. unfold writer_write_header, write_header. cbn [w_os w_hdr w_count]. change (os_data (os_at F pos)) with F.
  destruct (Nat.eqb_spec (length F) 0); [lia|]. cbn [negb obind].
  pose proof (hdr_bytes_len h HW) as LH.
  replace (os_seek (os_at F pos) 0) with (os_at F 0) by (unfold os_seek, os_at; cbn [os_fail]; reflexivity).
  assert (EF : F = [] ++ firstn 227 F ++ skipn 227 F) by (cbn [app]; now rewrite firstn_skipn).
  assert (W : os_write_all (os_at F 0) (header_chunks h) = Ok (os_at (hdr_bytes h ++ skipn 227 F) 227)).
  { rewrite EF at 1. pose proof (os_write_all_in [] (header_chunks h) (firstn 227 F) (skipn 227 F)) as P.
    cbn [List.length] in P. rewrite P.
    - rewrite firstn_length. cbn [app Nat.add]. rewrite Nat.min_l by lia. reflexivity.
    - fold (hdr_bytes h). rewrite LH, firstn_length. lia. }
  rewrite W. cbn [obind]. destruct (Z.eqb_spec (h_npts h) 0) as [E|E]; cbn [negb obind].
  - destruct HW as (_&_&_&_&_&_&_&_&_&_&_&_&_&_&_&Hd&_). unfold in_unsigned in Hd. rewrite os_seek_at by lia. reflexivity.
  - unfold os_seek_end. rewrite os_seek_at by lia. unfold os_at at 2. cbn [os_data]. rewrite Z.add_0_r, Nat2Z.id.
    rewrite app_length, skipn_length, LH. replace (227 + (length F - 227))%nat with (length F) by lia. reflexivity.
Qed.

Lemma again_ok sv h ps : fresh_ok sv h -> Forall (point_fits (get_record_length h)) ps -> h_npts h = 0 ->
  exists w w1 w2 F, writer_new sv (os_open []) h = Ok w /\ write_points w ps = Ok w1 /\ writer_write_header sv w1 = Ok w2 /\
    w_count w2 = 0 /\ os_pos (w_os w2) = data_start sv h /\ os_data (w_os w2) = os_data (w_os w1) /\
    writer_close w2 = Ok F /\ u_at F 107 4 = 0.
Proof.
  intros HF HP Hn. pose proof (writer_new_fresh sv h HF) as E0.
  set (h1 := fresh_header sv h (fresh_doff sv h)) in *. set (D := hdr_bytes h1) in *. set (p := Z.to_nat (h_hsize h)) in *.
  pose proof (fresh_header_wf sv h (fresh_doff sv h) HF) as W1. fold h1 in W1.
  pose proof (hdr_bytes_len h1 W1) as L1. fold D in L1.
  destruct (fresh_bounds sv h HF) as (B1 & B2 & _).
  assert (EP : Z.to_nat (fresh_doff sv h) = (p + length (fresh_tail sv h))%nat) by (symmetry; now apply fresh_tail_len).
  rewrite EP in E0.
  assert (Lp : (length D <= p)%nat) by (unfold p; lia).
  pose proof (write_points_ok h1 D p (fresh_tail sv h) 0 ps Lp HP) as EW.
  set (T := fresh_tail sv h ++ records (get_record_length h1) ps) in EW.
  destruct (then_at_split D p T) as [rest ER].
  assert (E1 : h_npts h1 = 0) by exact Hn.
  assert (E2 : h_doff h1 = fresh_doff sv h).
  { unfold h1, fresh_header. rewrite (proj1 (set_doff_fields _ _)). apply Z.mod_small. lia. }
  eexists. eexists. eexists. eexists. split; [exact E0|]. split; [exact EW|].
  rewrite ER. split.
  { rewrite write_header_again; [|rewrite app_length; lia|exact W1]. rewrite E1. cbn [Z.eqb].
    rewrite skipn_app, skipn_all2 by lia. rewrite L1, Nat.sub_diag. cbn [app skipn]. fold D. reflexivity. }
  cbn [w_count w_os]. unfold os_at. cbn [os_pos os_data]. split; [reflexivity|].
  split; [rewrite E2, Z2Nat.id by lia; reflexivity|]. split; [reflexivity|].
  split.
  { unfold D. fold (os_at (hdr_bytes h1 ++ rest) (Z.to_nat (h_doff h1))). apply close_any; [exact W1|lia]. }
  destruct (hdr_npts (set_point_count h1 0) (wf_set_npts h1 0 W1)) as (ES & EA).
  rewrite ES, <- !app_assoc. unfold u_at, slice. rewrite skipn_app, skipn_all2 by lia. rewrite EA. cbn [Nat.sub app].
  change (skipn 0 ?l) with l. rewrite firstn_app. reflexivity.
Qed.

(** ** which header blocks the reader accepts *)
Lemma set_schema_comp h sc h' : set_schema h sc = Ok h' -> h_comp h' = h_comp h.
Proof.
  unfold set_schema. destruct (get_dimension sc _); [|discriminate]. cbv zeta. destruct (get_dimension _ _); [|discriminate].
  destruct (get_dimension _ _); [|discriminate]. intros E. apply Ok_inj in E. rewrite <- E. reflexivity.
Qed.
Lemma vlr_loop_comp n : forall s v h h' s', read_vlr_loop n s v h = Ok (h', s') -> h_comp h' = h_comp h.
Proof.
  induction n as [|n IH]; intros s v h h' s'; cbn [read_vlr_loop].
  - intros E. apply Ok_inj in E. now injection E as <- <-.
  - intros E. apply obind_ok in E. destruct E as ([[w b] s1] & _ & E). apply IH in E. rewrite E. reflexivity.
Qed.
Lemma read_vlrs_comp xml s h h' s' : read_vlrs xml s h = Ok (h', s') -> h_comp h' = h_comp h.
Proof.
  unfold read_vlrs. intros E. apply obind_ok in E. destruct E as ([h1 s2] & E1 & E). apply vlr_loop_comp in E1.
  change (h_comp (set_records_count h 0)) with (h_comp h) in E1.
  set (h2 := set_srs h1 (h_vlrs h1)) in *. assert (E2 : h_comp h2 = h_comp h) by exact E1. clearbody h2.
  assert (X : forall sc, (let! h3 := set_schema h2 sc in Ok (h3, s2)) = Ok (h', s') -> h_comp h' = h_comp h).
  { intros sc Y. apply obind_ok in Y. destruct Y as (h3 & Y & Z). apply set_schema_comp in Y. apply Ok_inj in Z. injection Z as <- <-. congruence. }
  destruct (let! sc := schema_of_vlrs xml (h_vlrs h2) in set_schema h2 sc) as [h3|e|u] eqn:EA.
  - apply obind_ok in EA. destruct EA as (sc & _ & EA). apply set_schema_comp in EA. apply Ok_inj in E. injection E as <- <-. congruence.
  - destruct e; try discriminate; apply obind_ok in E; destruct E as (sc & _ & E); now apply (X sc).
  - discriminate.
Qed.
Lemma header_rest_comp xml h s rl h' s' : header_rest xml h s rl = Ok (h', s') -> h_comp h' = h_comp h.
Proof.
  unfold header_rest. intros E. apply obind_ok in E. destruct E as ([h1 s1] & E1 & E).
  apply obind_ok in E. destruct E as (b & _ & E). cbv zeta in E. apply obind_ok in E. destruct E as (h2 & E2 & E).
  apply Ok_inj in E. injection E as <- <-.
  assert (X1 : h_comp h1 = h_comp h).
  { destruct (0 <? h_nvlr h); [now apply read_vlrs_comp in E1|]. apply Ok_inj in E1. now injection E1 as <- <-. }
  unfold add_extra in E2. destruct (_ =? rl).
  - apply Ok_inj in E2. rewrite <- E2. exact X1.
  - apply obind_ok in E2. destruct E2 as (d & _ & E2). apply set_schema_comp in E2. rewrite E2. exact X1.
Qed.

Lemma set_format_45 s f sc u : 4 <= f <= 5 -> set_format s f <> (sc, Ok u).
Proof. intros Hf. unfold set_format. rewrite update_required_bad by lia. discriminate. Qed.

Lemma bits_format b : 0 <= b < 256 -> Z.testbit b 6 = false -> Z.testbit b 7 = false -> Z.land b 63 = b.
Proof.
  intros Hb H6 H7. change 63 with (Z.ones 6). rewrite Z.land_ones by lia. apply Z.mod_small.
  rewrite Z.testbit_false in H6, H7 by lia.
  assert (H : b / 2 ^ 6 = 2 * (b / 2 ^ 7) + (b / 2 ^ 6) mod 2).
  { rewrite (Z.div_mod (b / 2 ^ 6) 2) at 1 by lia. rewrite Z.div_div by lia. reflexivity. }
  rewrite H6 in H. assert (b / 2 ^ 7 < 2) by (apply Z.div_lt_upper_bound; lia). assert (0 <= b / 2 ^ 7) by (apply Z.div_pos; lia).
  destruct (Z.eq_dec (b / 2 ^ 7) 1) as [E|E]; [rewrite E in H7; discriminate|].
  assert (b / 2 ^ 6 = 0) by lia. apply Z.div_small_iff in H2; lia.
Qed.

(** accepted only if the checks hold *)
Lemma accepted_checks xml doy year F r : bytes_ok F -> (227 <= length F)%nat -> reader_open xml doy year F = Ok r ->
  slice F 0 4 = str "LASF" /\ u_at F 24 1 = 1 /\ u_at F 25 1 <= 3 /\ u_at F 94 2 <= u_at F 96 4 /\ u_at F 104 1 <= 3.
Proof.
  intros HB HL E. unfold reader_open in E. destruct (header_new_facts doy year) as (h0 & E0 & L0 & _). rewrite E0 in E. cbn [obind] in E.
  unfold impl_read_header in E. cbn [is_open is_eof] in E.
  rewrite (read_header_eq xml (is_open F) h0 F) in E by (reflexivity || assumption).
  unfold read_header_result in E.
  destruct (zlist_eqb (slice F 0 4) (str "LASF")) eqn:E1; [|discriminate]. apply zlist_eqb_spec in E1. cbn [negb] in E.
  destruct (Z.eqb_spec (u_at F 24 1) 1) as [E2|]; [|discriminate]. cbn [negb] in E.
  destruct (Z.ltb_spec 3 (u_at F 25 1)); [discriminate|]. destruct (Z.ltb_spec (u_at F 96 4) (u_at F 94 2)); [discriminate|].
  destruct (Z.testbit (fmt_byte F) 6) eqn:E6; [discriminate|]. destruct (Z.ltb_spec 5 (Z.land (fmt_byte F) 63)) as [|E5]; [discriminate|].
  split; [exact E1|]. split; [exact E2|]. split; [lia|]. split; [lia|].
  destruct (set_format (h_schema h0) (Z.land (fmt_byte F) 63)) as [sc [u|e|u]] eqn:EF; try discriminate.
  apply obind_ok in E. destruct E as ([h' s'] & ER & E). apply header_rest_comp in ER.
  change (h_comp (parsed F h0 sc (Z.testbit (fmt_byte F) 7))) with (Z.testbit (fmt_byte F) 7) in ER. rewrite ER in E.
  destruct (Z.testbit (fmt_byte F) 7) eqn:E7; [discriminate|].
  pose proof (u_at_range F 104 1 HB) as R. rewrite pow256_pow2 in R. change (2 ^ (8 * Z.of_nat 1)) with 256 in R. fold (fmt_byte F) in R |- *.
  rewrite bits_format in EF, E5 by assumption.
  destruct (Z_le_gt_dec (fmt_byte F) 3) as [|G]; [assumption|]. exfalso. revert EF. apply set_format_45. lia.
Qed.

(** ** a file that ends inside the header block *)
(** [s] is not failed and [k] bytes were read from the start of [F] *)
Definition at_ok (F : list Z) (k : nat) (s : istream) : Prop :=
  is_data s = F /\ (is_fail s = false -> is_pos s = k /\ (k <= length F)%nat).

Lemma is_read_at F k s n bs s' : at_ok F k s -> is_read s n = (bs, s') -> is_fail s = false -> at_ok F (k + n) s'.
Proof.
  intros (HD & HP) E Hf. destruct (HP Hf) as (Hp & Hk). unfold is_read in E. rewrite Hf, orb_false_r in E.
  destruct (is_eof s); [injection E as <- <-; split; [exact HD|discriminate]|].
  destruct (Nat.ltb_spec (length (firstn n (skipn (is_pos s) (is_data s)))) n) as [L|L]; injection E as <- <-; split; try exact HD; cbn [is_fail]; try discriminate.
  intros _. cbn [is_pos]. rewrite Hp, HD in *. rewrite firstn_length, skipn_length in L. lia.
Qed.
Lemma read_n_at F k s old v s' : at_ok F k s -> read_n s old = Ok (v, s') -> is_fail s = false /\ at_ok F (k + length old) s'.
Proof.
  intros HA E. unfold read_n in E. destruct (is_fail s) eqn:Hf; [discriminate|]. destruct (is_read s (length old)) as [bs s1] eqn:ER.
  apply Ok_inj in E. injection E as <- <-. split; [reflexivity|]. eapply is_read_at; eauto.
Qed.
Lemma read_uint_at F k s n old v s' : at_ok F k s -> read_uint s n old = Ok (v, s') -> is_fail s = false /\ at_ok F (k + n) s'.
Proof.
  intros HA E. unfold read_uint in E. apply obind_ok in E. destruct E as ([bs s1] & E1 & E). apply Ok_inj in E. injection E as <- <-.
  destruct (read_n_at F k s _ _ _ HA E1) as (X & Y). rewrite le_enc_length in Y. auto.
Qed.
Lemma read_f64_at F k s old v s' : at_ok F k s -> read_f64 s old = Ok (v, s') -> is_fail s = false /\ at_ok F (k + 8) s'.
Proof.
  intros HA E. unfold read_f64 in E. apply obind_ok in E. destruct E as ([bs s1] & E1 & E). apply Ok_inj in E. injection E as <- <-.
  destruct (read_n_at F k s _ _ _ HA E1) as (X & Y). rewrite le_enc_length in Y. auto.
Qed.
Lemma read_string_at F k s n v s' : at_ok F k s -> read_string s n = Ok (v, s') -> is_fail s = false /\ at_ok F (k + n) s'.
Proof.
  intros HA E. unfold read_string in E. destruct (is_fail s) eqn:Hf; [discriminate|]. destruct (is_read s n) as [bs s1] eqn:ER.
  destruct (length bs <? n)%nat; [discriminate|]. apply Ok_inj in E. injection E as <- <-. split; [reflexivity|]. eapply is_read_at; eauto.
Qed.
Lemma read_returns_at F m : forall k i s h v s', at_ok F k s -> read_returns m i s h = Ok (v, s') -> True /\ at_ok F (k + 4 * m) s'.
Proof.
  induction m as [|m IH]; intros k i s h v s' HA E; cbn [read_returns] in E.
  - apply Ok_inj in E. injection E as <- <-. split; [exact I|]. now rewrite Nat.mul_0_r, Nat.add_0_r.
  - apply obind_ok in E. destruct E as ([c s1] & E1 & E). apply obind_ok in E. destruct E as (h1 & _ & E).
    destruct (read_uint_at F k s 4 0 c s1 HA E1) as (_ & A1). apply (IH _ _ _ _ _ _ A1) in E. now replace (k + 4 * S m)%nat with (k + 4 + 4 * m)%nat by lia.
Qed.

Ltac read_step :=
  match goal with
  | E : obind ?o ?f = Ok _ |- _ =>
      let a := fresh "a" in let X := fresh "X" in
      apply obind_ok in E; destruct E as (a & X & E);
      match type of a with
      | prod _ _ => let v := fresh "v" in let s := fresh "s" in destruct a as [v s]; cbv beta iota zeta in E
      | _ => cbv beta zeta in E
      end;
      match goal with
      | HA : at_ok ?F ?k ?s0 |- _ =>
          match type of X with
          | read_uint s0 _ _ = Ok _ => apply (read_uint_at F k s0 _ _ _ _ HA) in X
          | read_f64 s0 _ = Ok _ => apply (read_f64_at F k s0 _ _ _ HA) in X
          | read_string s0 _ = Ok _ => apply (read_string_at F k s0 _ _ _ HA) in X
          | read_returns _ _ s0 _ = Ok _ => apply (read_returns_at F _ k _ s0 _ _ _ HA) in X
          | read_n s0 _ = Ok _ => apply (read_n_at F k s0 _ _ _ HA) in X
          end; clear HA; let HA' := fresh "HA" in destruct X as (_ & HA')
      | _ => clear X
      end
  end.

Lemma short_file_rejected xml s h r F : is_data s = F -> is_fail s = false -> (length F < 219)%nat -> read_header xml s h = Ok r -> False.
Proof.
  intros HD Hf HL E. unfold read_header in E.
  assert (HA : at_ok F 0 (is_seek s 0)).
  { unfold is_seek. rewrite Hf. change (0 <? 0) with false. cbv iota. split; [exact HD|]. intros _. cbn [is_pos]. split; [reflexivity|lia]. }
  set (s0 := is_seek s 0) in *. clearbody s0. cbv zeta in E.
  do 17 read_step. match type of E with (if ?c then _ else _) = _ => destruct c; [discriminate|] end.
  do 18 read_step. cbn [Nat.add Nat.mul] in *.
  (* the last field *)
  apply obind_ok in E. destruct E as ([zlast slast] & X & _).
  match goal with HA : at_ok F ?k ?q |- _ => apply (read_f64_at F k q _ _ _ HA) in X; destruct X as (Hq & _); destruct HA as (_ & HA); destruct (HA Hq) as (_ & HK) end.
  rewrite repeat_length in HK. lia.
Qed.

Lemma short_never_opened xml doy year F : (length F < 219)%nat -> forall r, reader_open xml doy year F <> Ok r.
Proof.
  intros HL r E. unfold reader_open in E. apply obind_ok in E. destruct E as (h & _ & E). unfold impl_read_header in E.
  cbn [is_open is_eof] in E. apply obind_ok in E. destruct E as (q & E & _).
  eapply (short_file_rejected xml (is_open F) h q F); eauto.
Qed.

(** Appending to an existing file; the point data offset of any new file. *)
From Coq Require Import ZArith List Bool Lia String.
From Coq Require Import ZifyBool ZifyNat.
Import ListNotations.
From Verif Require Import Outcome Bytes Float64 CStr Vlr_Model Schema_Model Header_Model Point_Model
  Stream_Model Stream_Proofs Writer_Model IO_Spec Writer_Api Writer_Proofs Writer_File Writer_V10 Reader_Proofs Reader_Vlrs.
Local Open Scope Z_scope.
Local Notation length := List.length (only parsing).

(** writing inside a file, piece by piece *)
Lemma os_write_all_in A cs : forall B C, length (List.concat cs) = length B ->
  os_write_all (os_at (A ++ B ++ C) (length A)) cs = Ok (os_at (A ++ List.concat cs ++ C) (length A + length B)).
Proof.
  revert A. induction cs as [|c cs IH]; intros A B C H; cbn [os_write_all List.concat] in *.
  - destruct B; [|discriminate]. cbn [app List.length]. now rewrite Nat.add_0_r.
  - rewrite app_length in H. rewrite os_write_at. cbn [obind].
    rewrite <- (firstn_skipn (length c) B) at 1. rewrite <- (app_assoc (firstn _ _)).
    rewrite file_write_in by (rewrite firstn_length; lia).
    rewrite (app_assoc A c). replace (length A + length c)%nat with (length (A ++ c)) by (now rewrite app_length).
    rewrite IH by (rewrite skipn_length; lia).
    rewrite <- !app_assoc. f_equal. f_equal. rewrite app_length, skipn_length. lia.
Qed.

Lemma writer_new_append sv F h : (227 <= length F)%nat -> header_wf h ->
  writer_new sv (os_open F) h =
  Ok (mkWriter (os_at (hdr_bytes h ++ skipn 227 F) (if h_npts h =? 0 then Z.to_nat (h_doff h) else length F)) h (h_npts h)).
Proof.
  intros HL HW. unfold writer_new, writer_write_header, write_header. cbn [w_os w_hdr w_count os_open os_data].
  destruct (Nat.eqb_spec (length F) 0); [lia|]. cbn [negb obind].
  pose proof (hdr_bytes_len h HW) as LH.
  change (os_seek (os_open F) 0) with (os_at F 0).
  assert (EF : F = [] ++ firstn 227 F ++ skipn 227 F) by (cbn [app]; now rewrite firstn_skipn).
  assert (W : os_write_all (os_at F 0) (header_chunks h) = Ok (os_at (hdr_bytes h ++ skipn 227 F) 227)).
  { rewrite EF at 1. pose proof (os_write_all_in [] (header_chunks h) (firstn 227 F) (skipn 227 F)) as P.
    cbn [List.length] in P. rewrite P.
    - rewrite firstn_length. cbn [app Nat.add]. rewrite Nat.min_l by lia. reflexivity.
    - fold (hdr_bytes h). rewrite LH, firstn_length. lia. }
  rewrite W. cbn [obind]. destruct (Z.eqb_spec (h_npts h) 0) as [E|E]; cbn [negb obind].
  - destruct HW as (_&_&_&_&_&_&_&_&_&_&_&_&_&_&_&Hd&_). unfold in_unsigned in Hd. rewrite os_seek_at by lia. reflexivity.
  - unfold os_seek_end. rewrite os_seek_at by lia. unfold os_at at 2. cbn [os_data]. rewrite Z.add_0_r, Nat2Z.id.
    rewrite app_length, skipn_length, LH. replace (227 + (length F - 227))%nat with (length F) by lia. reflexivity.
Qed.

Lemma app_end_write_points h D c ps : Forall (point_fits (get_record_length h)) ps ->
  write_points (mkWriter (os_at D (length D)) h c) ps =
  Ok (mkWriter (os_at (D ++ records (get_record_length h) ps) (length (D ++ records (get_record_length h) ps))) h
               (match ps with [] => c | _ => (c + Z.of_nat (length ps)) mod 2 ^ 32 end)).
Proof.
  intros HP. revert D c. induction HP as [|q ps [Hq Hne] HP IH]; intros D c.
  - cbn [write_points records map List.concat]. now rewrite app_nil_r.
  - cbn [write_points]. unfold write_point. cbn [w_hdr w_os w_count].
    set (n := Z.to_nat (get_record_length h)).
    destruct (p_data q) as [|b bs] eqn:E; [congruence|]. rewrite <- E.
    destruct (Nat.ltb_spec (length (p_data q)) n) as [C|C].
    { unfold n in C. rewrite <- E in Hq. lia. }
    change (firstn n (p_data q)) with (record_of (get_record_length h) q).
    rewrite os_write_at, file_write_app. cbn [obind].
    rewrite <- app_length.
    rewrite IH. unfold records. cbn [map List.concat].
    rewrite <- !app_assoc. f_equal. f_equal. destruct ps as [|q2 ps]; [reflexivity|].
    rewrite Zplus_mod_idemp_l. f_equal. cbn [List.length]. lia.
Qed.

Lemma close_any h rest pos c : header_wf h -> 0 <= c < 2 ^ 32 ->
  writer_close (mkWriter (os_at (hdr_bytes h ++ rest) pos) h c) = Ok (hdr_bytes (set_point_count h c) ++ rest).
Proof.
  intros H Hc. unfold writer_close, update_point_count. cbn [w_os w_count w_hdr].
  assert (E : (if c =? 0 then c else c) = c) by (destruct (c =? 0); reflexivity).
  rewrite E. unfold os_at at 1. cbn [os_fail]. rewrite os_seek_at by lia. rewrite os_write_at. cbn [obind w_os os_at os_data].
  change (Z.to_nat 107) with 107%nat. f_equal.
  destruct (hdr_npts h H) as [E1 L]. destruct (hdr_npts (set_point_count h c) (wf_set_npts h c H)) as [E' L'].
  destruct (hAC_npts h c) as [EA EC]. rewrite E1, E', EA, EC. rewrite <- L at 1. rewrite <- !app_assoc.
  rewrite file_write_in by (unfold le4; now rewrite !le_enc_length).
  unfold set_point_count. cbn [h_upd_npts h_npts]. rewrite Z.mod_small by lia. reflexivity.
Qed.

Lemma append_ok sv F h ps : (227 <= length F)%nat -> header_wf h -> 0 < h_npts h ->
  h_npts h + Z.of_nat (length ps) < 2 ^ 32 -> Forall (point_fits (get_record_length h)) ps ->
  write_session sv F h ps =
  Ok (hdr_bytes (set_point_count h (h_npts h + Z.of_nat (length ps))) ++ skipn 227 F ++ records (get_record_length h) ps).
Proof.
  intros HL HW Hn Hm HP. unfold write_session. rewrite writer_new_append by assumption. cbn [obind].
  destruct (Z.eqb_spec (h_npts h) 0); [lia|].
  replace (length F) with (length (hdr_bytes h ++ skipn 227 F)).
  2:{ rewrite app_length, skipn_length, hdr_bytes_len by assumption. lia. }
  rewrite app_end_write_points by assumption. cbn [obind]. rewrite <- app_assoc.
  rewrite close_any; [|exact HW|destruct ps; [lia|apply Z.mod_pos_bound; lia]].
  f_equal. f_equal. f_equal. f_equal. destruct ps; [cbn [List.length]; lia|]. apply Z.mod_small. lia.
Qed.

(** files without points: records go to the data offset *)
Lemma append_empty_ok sv F h ps : (227 <= length F)%nat -> header_wf h -> h_npts h = 0 -> Z.of_nat (length F) <= h_doff h ->
  Z.of_nat (length ps) < 2 ^ 32 -> Forall (point_fits (get_record_length h)) ps ->
  write_session sv F h ps =
  Ok (then_at (hdr_bytes (set_point_count h (Z.of_nat (length ps))) ++ skipn 227 F) (Z.to_nat (h_doff h)) (records (get_record_length h) ps)).
Proof.
  intros HL HW Hn HD Hm HP. unfold write_session. rewrite writer_new_append by assumption. cbn [obind]. rewrite Hn. cbn [Z.eqb].
  assert (LL : length (hdr_bytes h ++ skipn 227 F) = length F).
  { rewrite app_length, skipn_length, hdr_bytes_len by assumption. lia. }
  pose proof (write_points_ok h (hdr_bytes h ++ skipn 227 F) (Z.to_nat (h_doff h)) [] 0 ps) as W.
  cbn [List.length then_at] in W. rewrite Nat.add_0_r in W. rewrite W by (rewrite ?LL; assumption || lia). clear W.
  cbn [obind app].
  assert (E : then_at (hdr_bytes h ++ skipn 227 F) (Z.to_nat (h_doff h)) (records (get_record_length h) ps) =
     hdr_bytes h ++ match records (get_record_length h) ps with [] => skipn 227 F | _ => skipn 227 F ++ repeat 0 (Z.to_nat (h_doff h) - length F) ++ records (get_record_length h) ps end).
  { destruct (records (get_record_length h) ps); [reflexivity|]. cbn [then_at]. rewrite LL, <- app_assoc. reflexivity. }
  rewrite E, close_any; [|exact HW|destruct ps; [lia|apply Z.mod_pos_bound; lia]]. clear E.
  assert (EC : match ps with [] => 0 | _ :: _ => (0 + Z.of_nat (length ps)) mod 2 ^ 32 end = Z.of_nat (length ps)).
  { destruct ps; [reflexivity|]. apply Z.mod_small. lia. }
  rewrite EC. f_equal. destruct (records (get_record_length h) ps); [reflexivity|]. cbn [then_at].
  assert (LL2 : length (hdr_bytes (set_point_count h (Z.of_nat (length ps))) ++ skipn 227 F) = length F).
  { rewrite app_length, skipn_length, hdr_bytes_len by (now apply wf_set_npts). lia. }
  rewrite LL2, <- app_assoc. reflexivity.
Qed.

(** GUID of any header block *)
Lemma guid_of_hdr h rest : header_wf h -> slice (hdr_bytes h ++ rest) 8 16 = guid_swap (h_guid h).
Proof.
  intros H. destruct (Z.eq_dec (h_vmin h) 0) as [V|V]; [|now apply guid_of_hdr_bytes].
  pose proof H as (_&_&_&_&Hg&_).
  assert (L : length (guid_swap (h_guid h)) = 16%nat) by (rewrite guid_swap_len; exact Hg).
  apply (hdr_slice h rest 2); [exact H| | |symmetry; exact L].
  - unfold header_chunks. rewrite V. reflexivity.
  - rewrite V. reflexivity.
Qed.

(** ** point data offset of any new file *)
Lemma delete_vlrs_count h n id : h_nvlr (delete_vlrs h n id) = Z.of_nat (length (h_vlrs (delete_vlrs h n id))) mod 2 ^ 32.
Proof. reflexivity. Qed.

Lemma set_doff_fields h d : h_doff (set_data_offset h d) = d mod 2 ^ 32 /\ h_hsize (set_data_offset h d) = h_hsize h /\
  h_vlrs (set_data_offset h d) = h_vlrs h /\ h_nvlr (set_data_offset h d) = h_nvlr h /\ h_pad (set_data_offset h d) = h_pad h /\
  h_vmin (set_data_offset h d) = h_vmin h.
Proof. repeat split. Qed.

Lemma obind_ok {A B} (o : outcome A) (f : A -> outcome B) b : obind o f = Ok b -> exists a, o = Ok a /\ f a = Ok b.
Proof. destruct o; cbn [obind]; try discriminate. eauto. Qed.

Lemma Ok_inj {A} (a b : A) : Ok a = Ok b -> a = b.
Proof. congruence. Qed.
Lemma prepare_shape sv h h1 : prepare_header sv h = Ok h1 -> exists h4 b,
  h1 = set_data_offset h4 (h_hsize h4 + b + h_pad h4) /\ vlr_block_size h4 = Ok b /\ 0 <= h_pad h4 < 2 ^ 32 /\
  h_nvlr h4 = Z.of_nat (length (h_vlrs h4)) mod 2 ^ 32.
Proof.
  unfold prepare_header. set (h2 := if is_custom _ then _ else _). clearbody h2. destruct (h_comp h2); [discriminate|].
  pose proof (delete_vlrs_count h2 (str "laszip encoded") 22204) as CN.
  set (h3 := delete_vlrs h2 (str "laszip encoded") 22204) in *. clearbody h3. intros EP.
  apply obind_ok in EP. destruct EP as (p & ENP & EP). apply obind_ok in EP. destruct EP as (b & EB & EP).
  apply Ok_inj in EP. exists (set_header_padding h3 p), b. split; [symmetry; exact EP|]. split; [exact EB|]. split; [|exact CN].
  unfold set_header_padding. cbn [h_pad h_upd_pad]. apply Z.mod_pos_bound. lia.
Qed.

Lemma new_file_doff sv h w : writer_new sv (os_open []) h = Ok w ->
  let h' := w_hdr w in
  0 <= h_hsize h' -> h_hsize h' + vlrs_size (h_vlrs h') + 4 < 2 ^ 31 ->
  h_hsize h' + vlrs_size (h_vlrs h') <= h_doff h' <= h_hsize h' + vlrs_size (h_vlrs h') + 4.
Proof.
  unfold writer_new, writer_write_header, write_header. cbn [w_os w_hdr w_count os_open os_data List.length Nat.eqb negb].
  destruct (prepare_header sv h) as [h1| |] eqn:EP; try discriminate. cbn [obind].
  set (s0 := os_seek_end _ 0). destruct (os_write_all s0 (header_chunks h1)) as [s1| |] eqn:EW; try discriminate. cbn [obind].
  intros E Hhs HB.
  apply obind_ok in E. destruct E as ([[s2 h2] c2] & E & EE). injection EE as <-. cbn [w_hdr] in *.
  apply obind_ok in E. destruct E as ((s3 & h3) & E & EE).
  assert (h3 = h2) by (destruct (negb (0 =? 0)); injection EE; congruence). subst h3. clear EE.
  apply obind_ok in E. destruct E as ((sv1 & hv) & EV & E).
  apply obind_ok in E. destruct E as (sp & EPad & E).
  (* the VLR block *)
  destruct (prepare_shape sv h h1 EP) as (h4 & b & E1 & EB & P0 & CN).
  destruct (set_doff_fields h4 (h_hsize h4 + b + h_pad h4)) as (D1 & D2 & D3 & D4 & D5 & D6).
  rewrite <- E1 in *. clear E1 EP EW.
  (* the members that stay the same *)
  unfold write_vlrs in EV. apply obind_ok in EV. destruct EV as (req & ER & EV).
  apply obind_ok in EV. destruct EV as ((s4 & h5) & EV & EV2). apply obind_ok in EV2. destruct EV2 as (s5 & _ & EV2). injection EV2 as _ <-.
  assert (V5 : h_vlrs h5 = h_vlrs h1 /\ h_nvlr h5 = h_nvlr h1 /\ h_hsize h5 = h_hsize h1 /\ h_pad h5 = h_pad h1 /\
    (h_doff h5 = h_doff h1 /\ 0 <= to_signed 32 (h_doff h1 - req) \/ h_doff h5 = req mod 2 ^ 32)).
  { destruct (Z.ltb_spec (to_signed 32 (h_doff h1 - req)) 0).
    - apply obind_ok in EV. destruct EV as (s6 & _ & EV). injection EV as _ <-. repeat split. right. reflexivity.
    - injection EV as _ <-. repeat split. left. auto. }
  destruct V5 as (V1 & V2 & V3 & V4 & V5). clear EV.
  assert (VH : h_vlrs h2 = h_vlrs h5 /\ h_hsize h2 = h_hsize h5 /\ (h_doff h2 = h_doff h5 \/ h_doff h2 = (h_doff h5 + 2) mod 2 ^ 32)).
  { unfold write_pad_signature in E. destruct (0 <? h_vmin h5); [injection E as _ <-; auto|].
    apply obind_ok in E. destruct E as (r6 & _ & E). apply obind_ok in E. destruct E as ((s7 & h7) & E7 & E).
    apply obind_ok in E. destruct E as (s8 & _ & E). apply obind_ok in E. destruct E as (s9 & _ & E). injection E as _ <-.
    destruct (_ <? 2); [|injection E7 as _ <-; auto].
    apply obind_ok in E7. destruct E7 as (s6 & _ & E7). injection E7 as _ <-. split; [reflexivity|]. split; [reflexivity|]. right. reflexivity. }
  destruct VH as (VH1 & VH2 & VH3). clear E.
  assert (EH : h_hsize h2 = h_hsize h4) by congruence. assert (EL : h_vlrs h2 = h_vlrs h4) by congruence.
  rewrite EL, EH in HB |- *. rewrite EH in Hhs.
  set (L := h_vlrs h4) in *. pose proof (vlrs_size_count L) as HC. pose proof (vlrs_size_nonneg L) as HN.
  rewrite Z.mod_small in CN by lia.
  assert (BS : forall x, h_nvlr x = h_nvlr h4 -> h_vlrs x = L -> vlr_block_size x = Ok (vlrs_size L)).
  { intros x X1 X2. rewrite vlr_block_ok; rewrite ?X2; [reflexivity|congruence|lia]. }
  rewrite (BS h4) in EB by reflexivity. injection EB as <-.
  unfold required_header_size in ER. rewrite (BS h1) in ER by assumption. cbn [obind] in ER. injection ER as <-. rewrite D2 in V5.
  rewrite (to_signed_id' 32 (vlrs_size L + h_hsize h4)) in V5 by (unfold in_signed; lia).
  assert (PP : h_pad h4 <= 2).
  { rewrite V4, D5 in EPad. destruct (Z.ltb_spec 0 (h_pad h4)); [|lia].
    rewrite (BS h5) in EPad by congruence. cbn [obind] in EPad. unfold literal_zeros in EPad.
    destruct (Z.leb_spec (h_pad h4) 2); [lia|]. discriminate. }
  rewrite D1, Z.mod_small in V5 by lia.
  assert (D5' : h_hsize h4 + vlrs_size L <= h_doff h5 <= h_hsize h4 + vlrs_size L + 2).
  { destruct V5 as [[-> _]| ->]; [lia|]. rewrite Z.mod_small by lia. lia. }
  destruct VH3 as [-> | ->]; [lia|]. rewrite Z.mod_small by lia. lia.
Qed.

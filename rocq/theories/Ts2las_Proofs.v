(** Proofs about Ts2las_Model.v. *)
From Coq Require Import ZArith List Bool String Lia.
Import ListNotations.
From Verif Require Import Outcome Bytes Float64 CStr Classif_Model Vlr_Model Schema_Model Header_Model Endian_Model Endian_Proofs Point_Model Stream_Model Stream_Proofs Writer_Model Writer_Api Writer_Append
  Schema_Proofs IO_Spec Reader_Spec CApi_Safe CApiW_Proofs Reader_Proofs Ts2las_Model Ts2las_Spec.
Local Open Scope Z_scope.
Local Notation length := List.length (only parsing).

(** ** filling in a point *)
Definition zeros20 : list Z := repeat 0 20.
Definition core (x y z i fl code : Z) : list Z :=
  le_enc 4 x ++ le_enc 4 y ++ le_enc 4 z ++ le_enc 2 i ++ [fl; code; 0; 0; 0; 0].
Lemma core_length x y z i fl code : length (core x y z i fl code) = 20%nat.
Proof. unfold core. rewrite !app_length, !le_enc_length. reflexivity. Qed.

Lemma set_int_at h A O B n pos v : pos = Z.of_nat (length A) -> length O = n -> (1 <= n)%nat ->
  set_int (mkPoint (A ++ O ++ B) h) n pos v = Ok (mkPoint (A ++ le_enc n v ++ B) h).
Proof.
  intros -> HO Hn. unfold set_int, int_to_bits. cbn [p_data]. rewrite store_le_ok; [|exact Hn|lia|rewrite !app_length; lia]. cbn [obind]. unfold p_upd. cbn [p_hdr].
  rewrite Nat2Z.id, firstn_app, Nat.sub_diag, firstn_all. cbn [firstn]. rewrite app_nil_r.
  rewrite skipn_app. replace (length A + n - length A)%nat with n by lia. rewrite (skipn_all2 A) by lia. cbn [app]. rewrite skipn_app, HO, Nat.sub_diag. rewrite (skipn_all2 O) by lia. reflexivity.
Qed.
Lemma set_byte_at h A o B pos v : pos = Z.of_nat (length A) -> set_byte (mkPoint (A ++ o :: B) h) pos v = Ok (mkPoint (A ++ (v mod 256) :: B) h).
Proof.
  intros ->. unfold set_byte, assign. cbn [p_data]. rewrite app_length. cbn [List.length]. destruct (Z.leb_spec 0 (Z.of_nat (length A))); [|lia]. destruct (Z.ltb_spec (Z.of_nat (length A)) (Z.of_nat (length A + S (length B)))); [|lia].
  cbn [andb obind]. unfold p_upd. cbn [p_hdr]. rewrite Nat2Z.id, firstn_app, Nat.sub_diag, firstn_all. cbn [firstn]. rewrite app_nil_r.
  rewrite skipn_app. replace (S (length A) - length A)%nat with 1%nat by lia. rewrite (skipn_all2 A) by lia. reflexivity.
Qed.
Lemma get_byte_at h A o B pos : pos = Z.of_nat (length A) -> get_byte (mkPoint (A ++ o :: B) h) pos = Ok o.
Proof. intros ->. unfold get_byte, deref. cbn [p_data]. rewrite app_length. cbn [List.length]. destruct (Z.leb_spec 0 (Z.of_nat (length A))); [|lia]. destruct (Z.ltb_spec (Z.of_nat (length A)) (Z.of_nat (length A + S (length B)))); [|lia].
  cbn [andb]. rewrite Nat2Z.id, nth_error_app2, Nat.sub_diag by lia. reflexivity. Qed.
Lemma fill_core h rest x y z i code :
  (let! p := set_raw_x (mkPoint (zeros20 ++ rest) h) x in
   let! p := set_raw_y p y in
   let! p := set_raw_z p z in
   let! p := set_classification p code in
   set_intensity p i) = Ok (mkPoint (core x y z i 0 (code mod 256) ++ rest) h).
Proof.
  unfold set_raw_x, set_raw_y, set_raw_z, set_classification, set_intensity.
  change (zeros20 ++ rest) with ([] ++ repeat 0 4 ++ (repeat 0 16 ++ rest)). rewrite set_int_at by (reflexivity || lia). cbn [obind app].
  change (le_enc 4 x ++ repeat 0 16 ++ rest) with (le_enc 4 x ++ repeat 0 4 ++ (repeat 0 12 ++ rest)). rewrite set_int_at by (rewrite ?le_enc_length; reflexivity || lia). cbn [obind].
  replace (le_enc 4 x ++ le_enc 4 y ++ repeat 0 12 ++ rest) with ((le_enc 4 x ++ le_enc 4 y) ++ repeat 0 4 ++ (repeat 0 8 ++ rest)) by (rewrite <- app_assoc; reflexivity).
  rewrite set_int_at by (rewrite ?app_length, ?le_enc_length; reflexivity || lia). cbn [obind].
  replace ((le_enc 4 x ++ le_enc 4 y) ++ le_enc 4 z ++ repeat 0 8 ++ rest) with ((le_enc 4 x ++ le_enc 4 y ++ le_enc 4 z ++ repeat 0 3) ++ 0 :: (repeat 0 4 ++ rest)) by (rewrite <- !app_assoc; reflexivity).
  rewrite set_byte_at by (rewrite ?app_length, ?le_enc_length; reflexivity). cbn [obind].
  replace ((le_enc 4 x ++ le_enc 4 y ++ le_enc 4 z ++ repeat 0 3) ++ code mod 256 :: (repeat 0 4 ++ rest)) with ((le_enc 4 x ++ le_enc 4 y ++ le_enc 4 z) ++ repeat 0 2 ++ (0 :: code mod 256 :: repeat 0 4 ++ rest)) by (rewrite <- !app_assoc; reflexivity).
  rewrite set_int_at by (rewrite ?app_length, ?le_enc_length; reflexivity || lia).
  unfold core. rewrite <- !app_assoc. reflexivity.
Qed.
Lemma fill_echo h T x y z i code e : set_echo (mkPoint (core x y z i 0 code ++ T) h) e = Ok (mkPoint (core x y z i (echo_flags e) code ++ T) h).
Proof.
  assert (S : forall fl, core x y z i fl code ++ T = (le_enc 4 x ++ le_enc 4 y ++ le_enc 4 z ++ le_enc 2 i) ++ fl :: ([code; 0; 0; 0; 0] ++ T)) by (intros; unfold core; rewrite <- !app_assoc; reflexivity).
  assert (L : 14 = Z.of_nat (length (le_enc 4 x ++ le_enc 4 y ++ le_enc 4 z ++ le_enc 2 i))) by (rewrite !app_length, !le_enc_length; reflexivity).
  rewrite !S. unfold set_echo, echo_flags, set_number_of_returns, set_return_number.
  destruct (e =? 0); [|destruct (e =? 1); [|destruct (e =? 3)]]; repeat (rewrite (get_byte_at h _ _ _ _ L); cbn [obind]; rewrite (set_byte_at h _ _ _ _ _ L); cbn [obind]); reflexivity.
Qed.
Lemma fill_time h C O T t : length C = 20%nat -> length O = 8%nat -> (get_format h = 1 \/ get_format h = 3) ->
  set_time (mkPoint (C ++ O ++ T) h) t = Ok (mkPoint (C ++ le_enc 8 (f64_bits t) ++ T) h).
Proof.
  intros HC HO HF. unfold set_time, p_format. cbn [p_hdr]. replace ((get_format h =? 0) || (get_format h =? 2)) with false by (destruct HF as [-> | ->]; reflexivity).
  unfold endian_store_double. change (store_dispatch LittleE LittleE 8) with (int_to_bits 8).
  pose proof (set_int_at h C O T 8 20 (f64_bits t) ltac:(rewrite HC; reflexivity) HO ltac:(lia)) as E. unfold set_int in E. exact E.
Qed.
Lemma fill_color h C O T r g b pos : length C = pos -> length O = 6%nat -> (get_format h = 2 /\ pos = 20%nat \/ get_format h = 3 /\ pos = 28%nat) ->
  set_color (mkPoint (C ++ O ++ T) h) (mkColor r g b) = Ok (mkPoint (C ++ (le_enc 2 r ++ le_enc 2 g ++ le_enc 2 b) ++ T) h).
Proof.
  intros HC HO HF. destruct O as [|o0 [|o1 [|o2 [|o3 [|o4 [|o5 [|]]]]]]]; try discriminate.
  unfold set_color, p_format. cbn [p_hdr p_data c_red c_green c_blue].
  assert (NZ : Z.of_nat (length (C ++ [o0; o1; o2; o3; o4; o5] ++ T)) =? 0 = false) by (apply Z.eqb_neq; rewrite !app_length; cbn [List.length]; lia). rewrite NZ.
  assert (IP : (if (get_format h =? 0) || (get_format h =? 1) then 0 else if get_format h =? 2 then 20 else if get_format h =? 3 then 28 else 20) = Z.of_nat pos /\ ((get_format h =? 0) || (get_format h =? 1)) = false /\ (get_format h =? 1) = false).
  { destruct HF as [(-> & ->) | (-> & ->)]; split; [reflexivity| |reflexivity|]; split; reflexivity. }
  destruct IP as (IP & F0 & F1). rewrite F0 in *. rewrite F1. cbn [orb]. cbv zeta.
  replace (if get_format h =? 2 then 20 else if get_format h =? 3 then 28 else 20) with (Z.of_nat pos).
  change ([o0; o1; o2; o3; o4; o5] ++ T) with ([o0; o1] ++ ([o2; o3; o4; o5] ++ T)). rewrite set_int_at by (rewrite ?HC; reflexivity || lia). cbn [obind].
  replace (C ++ le_enc 2 r ++ [o2; o3; o4; o5] ++ T) with ((C ++ le_enc 2 r) ++ [o2; o3] ++ ([o4; o5] ++ T)) by (rewrite <- !app_assoc; reflexivity).
  rewrite set_int_at by (rewrite ?app_length, ?le_enc_length, ?HC; reflexivity || lia). cbn [obind].
  replace ((C ++ le_enc 2 r) ++ le_enc 2 g ++ [o4; o5] ++ T) with ((C ++ le_enc 2 r ++ le_enc 2 g) ++ [o4; o5] ++ T) by (rewrite <- !app_assoc; reflexivity).
  rewrite set_int_at by (rewrite ?app_length, ?le_enc_length, ?HC; reflexivity || lia). rewrite <- !app_assoc. reflexivity.
Qed.

(** ** reading *)
Lemma read_n_at B p old n : length old = n -> (p + n <= length B)%nat -> read_n (at_pos B p) old = Ok (slice B p n, at_pos B (p + n)).
Proof.
  intros L H. unfold read_n. cbn [at_pos is_fail]. fold (at_pos B p). rewrite L, is_read_ok by exact H. unfold patch. rewrite skipn_all2 by (rewrite slice_length by lia; lia). rewrite app_nil_r. reflexivity.
Qed.
Lemma read_uint_at B p n v : (p + n <= length B)%nat -> read_uint (at_pos B p) n v = Ok (u_at B p n, at_pos B (p + n)).
Proof. intros H. unfold read_uint. rewrite (read_n_at B p _ n (le_enc_length n v) H). reflexivity. Qed.

(** ** the header block of a .bin file *)
Lemma member_at B o w : (o + w <= 56)%nat -> member (slice B 0 56) o w = u_at B o w.
Proof. intros H. unfold member. fold (slice (slice B 0 56) o w). rewrite slice_slice by exact H. reflexivity. Qed.
Lemma signed_eq v k : 0 <= v < 2 ^ 32 -> 0 <= k < 2 ^ 31 -> (to_signed 32 v =? k) = (v =? k).
Proof. intros Hv Hk. unfold to_signed. change (2 ^ (32 - 1)) with (2 ^ 31). change (2 ^ 31) with 2147483648 in *. change (2 ^ 32) with 4294967296 in *. 
  destruct (Z.eqb_spec v k) as [E|E].
  - subst. apply Z.eqb_eq. rewrite Z.mod_small by lia. destruct (Z.ltb_spec k 2147483648); lia.
  - apply Z.eqb_neq. rewrite Z.mod_small by lia. destruct (Z.ltb_spec v 2147483648); lia. Qed.
Lemma le_enc_mod n z : le_enc n (z mod pow256 n) = le_enc n z.
Proof. pose proof (le_enc_dec (le_enc n z) (le_enc_bytes n z)) as E. rewrite le_enc_length, le_dec_enc in E. exact E. Qed.
Lemma le_enc_signed B o : bytes_ok B -> (o + 4 <= length B)%nat -> le_enc 4 (to_signed 32 (u_at B o 4)) = slice B o 4.
Proof.
  intros HB H. rewrite <- le_enc_mod. change (pow256 4) with (2 ^ 32). rewrite to_signed_mod by lia. change (2 ^ 32) with (pow256 4). rewrite le_enc_mod.
  pose proof (le_enc_dec (slice B o 4) (slice_bytes B o 4 HB)) as E. rewrite slice_length in E by exact H. exact E.
Qed.
Lemma le_enc_unsigned B o n : bytes_ok B -> (o + n <= length B)%nat -> le_enc n (u_at B o n) = slice B o n.
Proof. intros HB H. pose proof (le_enc_dec (slice B o n) (slice_bytes B o n HB)) as E. rewrite slice_length in E by exact H. exact E. Qed.

Lemma slice12 B o : slice B o 12 = slice B o 4 ++ slice B (o + 4) 4 ++ slice B (o + 8) 4.
Proof. change 12%nat with (4 + (4 + 4))%nat. rewrite !slice_split. rewrite <- Nat.add_assoc. reflexivity. Qed.

Section BIN.
Variable B : list Z.
Hypothesis HB : bin_file B.
Let hb := slice B 0 56.
Lemma b_bytes : bytes_ok B. Proof. apply HB. Qed.
Lemma b_len : (56 <= length B)%nat. Proof. apply HB. Qed.
Lemma r32 o : 0 <= u_at B o 4 < 2 ^ 32.
Proof. pose proof (Reader_Proofs.u_at_range B o 4 b_bytes) as H. change (pow256 4) with (2 ^ 32) in H. exact H. Qed.
Lemma hb_version : hdr_version hb = bin_version B.
Proof.
  unfold hdr_version, smember, hb. rewrite member_at by lia. unfold bin_version in *. destruct HB as (_ & _ & _ & _ & V & _). unfold bin_version in V. apply to_signed_id'; [lia|]. unfold in_signed. change (2 ^ (32 - 1)) with 2147483648.
  pose proof (r32 4). lia.
Qed.
Lemma hb_pnt : is_pnt hb = bin_long B.
Proof. unfold is_pnt, bin_long. now rewrite hb_version. Qed.
Lemma hb_time : hdr_time hb = bin_has_time B.
Proof. unfold hdr_time, bin_has_time, smember, hb. rewrite member_at by lia. rewrite signed_eq by (try apply r32; lia). reflexivity. Qed.
Lemma hb_color : hdr_color hb = bin_has_color B.
Proof. unfold hdr_color, bin_has_color, smember, hb. rewrite member_at by lia. rewrite signed_eq by (try apply r32; lia). reflexivity. Qed.
Lemma hb_count : hdr_count hb = bin_count B.
Proof. unfold hdr_count, smember, hb. rewrite member_at by lia. fold (bin_count B). destruct HB as (_ & _ & _ & _ & _ & C). apply to_signed_id'; [lia|]. unfold in_signed. change (2 ^ (32 - 1)) with (2 ^ 31). pose proof (r32 16). unfold bin_count in *. lia. Qed.
Lemma hb_units : hdr_units hb = bin_units B.
Proof. unfold hdr_units, bin_units, smember, hb. now rewrite member_at by lia. Qed.
Lemma hb_org k : (k <= 2)%nat -> hdr_org hb k = bin_origin B k.
Proof. intros H. unfold hdr_org, bin_origin, hb. now rewrite member_at by lia. Qed.
Lemma header_read : read_scan_header (is_open B) = Some (hb, at_pos B 56).
Proof.
  unfold read_scan_header. change (is_open B) with (at_pos B 0). rewrite (read_n_at B 0 (repeat 0 56) 56 (repeat_length _ _) b_len). fold hb.
  replace (hdr_tunniste hb =? 970401) with true.
  2: { symmetry. unfold hdr_tunniste, smember, hb. rewrite member_at by lia. rewrite signed_eq by (try apply r32; lia). destruct HB as (_ & _ & -> & _). reflexivity. }
  replace (zlist_eqb (hdr_magic hb) (str "CXYZ")) with true.
  2: { unfold hdr_magic, hb. fold (slice (slice B 0 56) 12 4). rewrite slice_slice by lia. change (0 + 12)%nat with 12%nat. destruct HB as (_ & _ & _ & -> & _). reflexivity. }
  replace (known_version (hdr_version hb)) with true; [reflexivity|]. rewrite hb_version. destruct HB as (_ & _ & _ & _ & V & _). unfold known_version.
  destruct V as [-> | [-> | [-> | V]]]; try reflexivity. symmetry. rewrite !orb_true_iff, andb_true_iff, !Z.eqb_eq, !Z.ltb_lt. lia.
Qed.

(** ** one record *)
Lemma scan_core p : (p + bin_core B <= length B)%nat ->
  let c := if bin_long B then scan_pnt (slice B p (bin_core B)) else scan_row (slice B p (bin_core B)) in
  core (sc_x c) (sc_y c) (sc_z c) (sc_intensity c) (echo_flags (sc_echo c)) (sc_code c mod 256) = las_core B p.
Proof.
  intros L. unfold las_core, bin_core in *. pose proof b_bytes as BB.
  assert (M : forall k o w, (o + w <= k)%nat -> member (slice B p k) o w = u_at B (p + o) w).
  { intros k o w H. unfold member. fold (slice (slice B p k) o w). now rewrite slice_slice. }
  assert (CB : forall o, le_enc 1 (u_at B o 1) = [u_at B o 1 mod 256]) by reflexivity.
  destruct (bin_long B); cbv zeta.
  - unfold core, scan_pnt, smember. cbn [sc_x sc_y sc_z sc_intensity sc_echo sc_code]. rewrite !M by lia. rewrite !le_enc_signed by (assumption || lia). rewrite le_enc_unsigned by (assumption || lia).
    rewrite Nat.add_0_r. rewrite slice12. rewrite <- !app_assoc. rewrite <- (le_enc_unsigned B (p + 12) 1) by (assumption || lia). rewrite CB. reflexivity.
  - unfold core, scan_row, smember. cbn [sc_x sc_y sc_z sc_intensity sc_echo sc_code]. rewrite !M by lia. rewrite !le_enc_signed by (assumption || lia).
    rewrite Nat.add_0_r. rewrite slice12. rewrite <- !app_assoc. rewrite <- (le_enc_unsigned B p 1) by (assumption || lia). rewrite CB. rewrite <- !Nat.add_assoc.
    change 16383 with (Z.ones 14). rewrite Z.land_ones by lia. rewrite Z.shiftr_div_pow2 by lia.
    replace (u_at B (p + 2) 2 / 2 ^ 14 mod 256) with (u_at B (p + 2) 2 / 2 ^ 14); [reflexivity|].
    pose proof (Reader_Proofs.u_at_range B (p + 2) 2 BB) as H. change (pow256 2) with 65536 in H. symmetry. apply Z.mod_small. change (2 ^ 14) with 16384. split; [apply Z.div_pos; lia|]. apply Z.div_lt_upper_bound; lia.
Qed.
Lemma one_scan_ok w p old : get_format (w_hdr w) = las_format (bin_has_time B) (bin_has_color B) -> get_record_length (w_hdr w) = las_length (bin_has_time B) (bin_has_color B) ->
  (p + bin_record B <= length B)%nat -> length old = bin_core B ->
  one_scan hb (at_pos B p) old w =
  match write_point w (mkPoint (las_record_at B p) (w_hdr w)) with
  | Ok w' => Ok (at_pos B (p + bin_record B), slice B p (bin_core B), w')
  | Throw _ => Ok (at_pos B (p + bin_record B), slice B p (bin_core B), w)
  | UB u => UB u
  end.
Proof.
  intros HF HR L LO. unfold bin_record in L. unfold one_scan. rewrite (read_n_at B p old (bin_core B) LO) by lia. cbn [obind]. rewrite hb_pnt, hb_time, hb_color.
  set (c := if bin_long B then scan_pnt (slice B p (bin_core B)) else scan_row (slice B p (bin_core B))). cbv zeta.
  pose proof (scan_core p ltac:(lia)) as SC. cbv zeta in SC. fold c in SC.
  assert (PN : point_new (w_hdr w) = mkPoint (zeros20 ++ repeat 0 (Z.to_nat (las_length (bin_has_time B) (bin_has_color B)) - 20)) (w_hdr w)).
  { unfold point_new. rewrite HR. f_equal. unfold zeros20. rewrite <- repeat_app. f_equal. unfold las_length. destruct (bin_has_time B), (bin_has_color B); reflexivity. }
  rewrite PN. set (rest := repeat 0 (Z.to_nat (las_length (bin_has_time B) (bin_has_color B)) - 20)).
  pose proof (fill_core (w_hdr w) rest (sc_x c) (sc_y c) (sc_z c) (sc_intensity c) (sc_code c)) as FC.
  assert (X : forall (K : point -> outcome (istream * list Z * writer)),
    (let! p0 := set_raw_x (mkPoint (zeros20 ++ rest) (w_hdr w)) (sc_x c) in let! p1 := set_raw_y p0 (sc_y c) in let! p2 := set_raw_z p1 (sc_z c) in let! p3 := set_classification p2 (sc_code c) in
     let! p4 := set_intensity p3 (sc_intensity c) in K p4) = K (mkPoint (core (sc_x c) (sc_y c) (sc_z c) (sc_intensity c) 0 (sc_code c mod 256) ++ rest) (w_hdr w))).
  { intros K. apply obind_ok in FC as (p0 & -> & FC). cbn [obind]. apply obind_ok in FC as (p1 & -> & FC). cbn [obind]. apply obind_ok in FC as (p2 & -> & FC). cbn [obind]. apply obind_ok in FC as (p3 & -> & FC). cbn [obind]. rewrite FC. reflexivity. }
  rewrite X. clear X FC PN. set (C0 := core (sc_x c) (sc_y c) (sc_z c) (sc_intensity c) 0 (sc_code c mod 256)).
  assert (L0 : length C0 = 20%nat) by apply core_length.
  assert (EF : forall T, set_echo (mkPoint (C0 ++ T) (w_hdr w)) (sc_echo c) = Ok (mkPoint (las_core B p ++ T) (w_hdr w))).
  { intros T. unfold C0. rewrite fill_echo, SC. reflexivity. }
  clearbody C0. clear SC. clearbody c. unfold las_record_at, bin_record, set_bin_time, set_bin_color, las_time, las_color. cbv zeta. change step with tick.
  subst rest. destruct (bin_has_time B), (bin_has_color B); cbn [las_format] in HF.
  - change (repeat 0 (Z.to_nat (las_length true true) - 20)) with (repeat 0 8 ++ repeat 0 6).
    rewrite read_uint_at by lia. cbn [obind]. rewrite fill_time by (auto || reflexivity). cbn [obind].
    rewrite read_uint_at by lia. cbn [obind]. rewrite read_uint_at by lia. cbn [obind]. rewrite read_uint_at by lia. cbn [obind]. rewrite read_uint_at by lia. cbn [obind].
    rewrite app_assoc. rewrite <- (app_nil_r (repeat 0 6)). rewrite (fill_color _ _ _ _ _ _ _ 28) by (rewrite ?app_length, ?le_enc_length, ?L0; auto || reflexivity). cbn [obind]. rewrite <- app_assoc. rewrite EF. cbn [obind]. rewrite app_nil_r.
    rewrite <- !Nat.add_assoc. cbn [Nat.add]. reflexivity.
  - change (repeat 0 (Z.to_nat (las_length true false) - 20)) with (repeat 0 8 ++ []).
    rewrite read_uint_at by lia. cbn [obind]. rewrite fill_time by (auto || reflexivity). cbn [obind]. rewrite EF. cbn [obind].
    rewrite <- !Nat.add_assoc. cbn [Nat.add]. reflexivity.
  - change (repeat 0 (Z.to_nat (las_length false true) - 20)) with (repeat 0 6 ++ []). cbn [obind].
    rewrite read_uint_at by lia. cbn [obind]. rewrite read_uint_at by lia. cbn [obind]. rewrite read_uint_at by lia. cbn [obind]. rewrite read_uint_at by lia. cbn [obind].
    rewrite (fill_color _ _ _ _ _ _ _ 20) by (auto || reflexivity). cbn [obind]. rewrite EF. cbn [obind]. rewrite app_nil_r.
    rewrite !Nat.add_0_r. rewrite <- !Nat.add_assoc. cbn [Nat.add]. reflexivity.
  - change (repeat 0 (Z.to_nat (las_length false false) - 20)) with (@nil Z). cbn [obind]. rewrite EF. cbn [obind]. rewrite !Nat.add_0_r. reflexivity.
Qed.

(** ** the LAS header *)
Definition las_scale : f64 := f64_div f64_one (f64_of_Z (bin_units B)).
Definition las_off (k : nat) : f64 := f64_mul (f64_opp (bin_origin B k)) las_scale.
Lemma reformat t c : exists s3 s, schema_new 3 = Ok s3 /\ set_format s3 (las_format t c) = (s, Ok tt) /\ s_format s = las_format t c /\ schema_bytes s mod 2 ^ 16 = las_length t c /\ is_custom s = false.
Proof.
  destruct (Schema_Proofs.sinv_new 3 ltac:(lia)) as (s3 & E & _ & _). exists s3. rewrite E. vm_compute in E. apply Ok_inj in E. subst s3.
  destruct t, c; eexists; (split; [reflexivity|]; split; [vm_compute; reflexivity|]; split; [vm_compute; reflexivity|]; split; vm_compute; reflexivity).
Qed.
Lemma create_header_ok sv doy year : exists h, create_header doy year hb = Ok h /\ fresh_ok sv h /\
  get_format h = las_format (bin_has_time B) (bin_has_color B) /\ get_record_length h = las_length (bin_has_time B) (bin_has_color B) /\
  h_sig h = str "LASF" /\ h_vmaj h = 1 /\ h_vmin h = 2 /\ h_scale h = (las_scale, las_scale, las_scale) /\ h_offset h = (las_off 0, las_off 1, las_off 2) /\ written_vlrs sv h = [].
Proof.
  destruct (CApi_Safe.header_new_wf doy year) as (h0 & E & W & _).
  destruct (reformat (bin_has_time B) (bin_has_color B)) as (s3 & s & E3 & SF & F & RL & CU).
  assert (H0 : h_sig h0 = str "LASF" /\ h_vmaj h0 = 1 /\ h_srs h0 = [] /\ h_vlrs h0 = [] /\ h_comp h0 = false /\ h_hsize h0 = 227 /\ h_doff h0 = 227 /\ h_pad h0 = 0 /\ h_schema h0 = s3 /\ h_nvlr h0 = 0).
  { unfold header_new in E. rewrite E3 in E. cbn [obind] in E. apply Ok_inj in E. subst h0. repeat split. }
  destruct H0 as (A1 & A2 & A3 & A4 & A5 & A6 & A7 & A8 & A9 & A10).
  unfold create_header. rewrite E. cbn [obind]. unfold set_version_minor. change (eVersionMinorMax <? 2) with false. cbv iota. cbn [obind].
  unfold set_header_format. change (h_schema (h_upd_vmin h0 2)) with (h_schema h0). rewrite A9. rewrite hb_time, hb_color.
  assert (BF : bin_format (bin_has_time B) (bin_has_color B) = las_format (bin_has_time B) (bin_has_color B)) by (destruct (bin_has_time B), (bin_has_color B); reflexivity).
  rewrite BF, SF. cbn [obind]. rewrite hb_units, hb_count, !hb_org by lia. fold las_scale. fold (las_off 0) (las_off 1) (las_off 2).
  eexists. split; [reflexivity|].
  set (h := set_point_count _ _).
  assert (WV : written_vlrs sv h = []).
  { unfold written_vlrs. change (h_schema h) with s. rewrite CU. change (h_vlrs h) with (h_vlrs h0). change (h_srs h) with (h_srs h0). rewrite A3, A4. reflexivity. }
  split.
  { unfold fresh_ok. cbv zeta. rewrite WV. change (h_schema h) with s. rewrite CU. change (h_comp h) with (h_comp h0). change (h_srs h) with (h_srs h0). change (h_hsize h) with (h_hsize h0). change (h_doff h) with (h_doff h0). change (h_pad h) with (h_pad h0).
    rewrite A3, A5, A6, A7, A8. split; [|split; [reflexivity|split; [constructor|split; [discriminate|split; [constructor|cbn [vlrs_size fold_right]; lia]]]]].
    destruct W as (H1&H2&H3&H4&H5&H6&H7&H8&H9&H10&H11&H12&H13&H14&H15&H16&H17&H18&H19&H20&H21&H22&H23).
    unfold header_wf. change (h_npts h) with (bin_count B mod 2 ^ 32). change (h_vmin h) with 2.
    repeat (split; [first [assumption | (unfold in_unsigned; clear; lia) | (unfold in_unsigned; apply Z.mod_pos_bound; clear; lia)]|]). assumption. }
  split; [exact F|]. split; [exact RL|]. split; [exact A1|]. split; [exact A2|]. split; [reflexivity|]. split; [reflexivity|]. split; [reflexivity|]. exact WV.
Qed.

(** ** all records *)
Definition las_points (h : header) (i n : nat) : list point := map (fun k => mkPoint (las_record B k) h) (seq i n).
Lemma las_core_length p : (p + bin_core B <= length B)%nat -> length (las_core B p) = 20%nat.
Proof. intros L. rewrite <- scan_core by exact L. apply core_length. Qed.
Lemma las_record_length p : (p + bin_core B <= length B)%nat -> Z.of_nat (length (las_record_at B p)) = las_length (bin_has_time B) (bin_has_color B).
Proof.
  intros L. unfold las_record_at. cbv zeta. rewrite !app_length, las_core_length by exact L. unfold las_length, las_time, las_color.
  destruct (bin_has_time B), (bin_has_color B); rewrite ?app_length, ?le_enc_length; cbn [List.length]; reflexivity.
Qed.
Definition kept (i n : nat) (old : list Z) : list Z := match n with O => old | S m => slice B (56 + (i + m) * bin_record B) (bin_core B) end.
Lemma core_le : (bin_core B <= bin_record B)%nat.
Proof. unfold bin_record. lia. Qed.
Lemma scan_loop_more m n : forall i w w' old, get_format (w_hdr w) = las_format (bin_has_time B) (bin_has_color B) -> get_record_length (w_hdr w) = las_length (bin_has_time B) (bin_has_color B) ->
  (56 + (i + n) * bin_record B <= length B)%nat -> length old = bin_core B -> write_points w (las_points (w_hdr w) i n) = Ok w' ->
  scan_loop (n + m) hb (at_pos B (56 + i * bin_record B)) old w = scan_loop m hb (at_pos B (56 + (i + n) * bin_record B)) (kept i n old) w'.
Proof.
  pose proof core_le as BR.
  induction n as [|n IH]; intros i w w' old HF HR L LO E.
  { cbn [las_points seq map write_points] in E. apply Ok_inj in E. subst. rewrite Nat.add_0_r. reflexivity. }
  change (S n + m)%nat with (S (n + m)). cbn [scan_loop].
  rewrite (one_scan_ok w _ old HF HR) by (cbn [Nat.add Nat.mul] in *; nia || exact LO).
  unfold las_points in E. cbn [seq map write_points] in E. apply obind_ok in E as (w1 & E1 & E). unfold las_record in E1. rewrite E1. cbn [obind].
  assert (WH : w_hdr w1 = w_hdr w) by (eapply CApiW_Proofs.write_point_hdr; exact E1).
  replace (56 + i * bin_record B + bin_record B)%nat with (56 + S i * bin_record B)%nat by lia. rewrite (IH (S i) w1 w').
  - replace (S i + n)%nat with (i + S n)%nat by lia. f_equal. unfold kept. destruct n as [|n]; [now rewrite Nat.add_0_r|]. now replace (S i + n)%nat with (i + S n)%nat by lia.
  - now rewrite WH. - now rewrite WH. - replace (S i + n)%nat with (i + S n)%nat by lia. exact L.
  - rewrite slice_length; [reflexivity|]. nia.
  - rewrite WH. exact E.
Qed.

(** ** short files *)
Lemma read_short p old : (length B < p + length old)%nat -> (p <= length B)%nat -> exists now s, read_n (at_pos B p) old = Ok (now, s) /\ length now = length old /\ is_fail s = true.
Proof.
  intros H HP. unfold read_n. cbn [at_pos is_fail]. fold (at_pos B p). rewrite is_read_short by lia. eexists _, _. split; [reflexivity|]. split; [|reflexivity]. unfold patch. rewrite app_length, !skipn_length. lia.
Qed.
Lemma read_any p old : (p <= length B)%nat -> exists now s, read_n (at_pos B p) old = Ok (now, s) /\ length now = length old /\ (s = at_pos B (p + length old) /\ (p + length old <= length B)%nat \/ is_fail s = true /\ (length B < p + length old)%nat).
Proof.
  intros HP. destruct (Nat.le_gt_cases (p + length old) (length B)) as [L|L].
  - exists (slice B p (length old)), (at_pos B (p + length old)). split; [now apply read_n_at|]. split; [now apply slice_length|]. auto.
  - destruct (read_short p old L HP) as (now & s & E1 & E2 & E3). exists now, s. auto.
Qed.
Lemma read_failed s old : is_fail s = true -> read_n s old = Throw ERuntime.
Proof. unfold read_n. now intros ->. Qed.
Lemma uint_any p n v : (p <= length B)%nat -> exists x s, read_uint (at_pos B p) n v = Ok (x, s) /\ (s = at_pos B (p + n) /\ (p + n <= length B)%nat \/ is_fail s = true /\ (length B < p + n)%nat).
Proof.
  intros HP. unfold read_uint. destruct (read_any p (le_enc n v) HP) as (now & s & E1 & E2 & E3). rewrite E1. cbn [obind]. rewrite le_enc_length in *. eexists _, s. split; [reflexivity|exact E3].
Qed.
Lemma uint_failed s n v : is_fail s = true -> read_uint s n v = Throw ERuntime.
Proof. intros H. unfold read_uint. now rewrite read_failed. Qed.

Lemma sets h x y z i code rest (K : point -> outcome (istream * list Z * writer)) :
  (let! p0 := set_raw_x (mkPoint (zeros20 ++ rest) h) x in let! p1 := set_raw_y p0 y in let! p2 := set_raw_z p1 z in let! p3 := set_classification p2 code in
   let! p4 := set_intensity p3 i in K p4) = K (mkPoint (core x y z i 0 (code mod 256) ++ rest) h).
Proof.
  pose proof (fill_core h rest x y z i code) as FC.
  apply obind_ok in FC as (p0 & -> & FC). cbn [obind]. apply obind_ok in FC as (p1 & -> & FC). cbn [obind]. apply obind_ok in FC as (p2 & -> & FC). cbn [obind]. apply obind_ok in FC as (p3 & -> & FC). cbn [obind]. rewrite FC. reflexivity.
Qed.
Lemma write_no_ub w d : get_record_length (w_hdr w) = las_length (bin_has_time B) (bin_has_color B) -> Z.of_nat (length d) = las_length (bin_has_time B) (bin_has_color B) ->
  exists r, (match write_point w (mkPoint d (w_hdr w)) with Ok w' => Ok w' | Throw _ => Ok w | UB u => UB u end) = Ok r /\ w_hdr r = w_hdr w.
Proof.
  intros HR HD. unfold write_point. rewrite HR, <- HD, Nat2Z.id. cbn [p_data].
  assert (20 <= las_length (bin_has_time B) (bin_has_color B)) by (unfold las_length; destruct (bin_has_time B), (bin_has_color B); lia).
  destruct d as [|a d]; [cbn [List.length] in HD; lia|]. rewrite Nat.ltb_irrefl. unfold os_write. destruct (os_fail (w_os w)); cbn [obind]; eexists; split; reflexivity.
Qed.
(** a record that is not all there: either the program ends with an exception, or
    the stream is no longer readable *)
Lemma one_scan_short w p old : get_format (w_hdr w) = las_format (bin_has_time B) (bin_has_color B) -> get_record_length (w_hdr w) = las_length (bin_has_time B) (bin_has_color B) ->
  (p <= length B)%nat -> (length B < p + bin_record B)%nat -> length old = bin_core B ->
  one_scan hb (at_pos B p) old w = Throw ERuntime \/ exists s now w', one_scan hb (at_pos B p) old w = Ok (s, now, w') /\ is_fail s = true.
Proof.
  intros HF HR HP L LO. unfold bin_record in L. unfold one_scan. destruct (read_any p old HP) as (now & s & -> & LN & S). rewrite LO in S. cbn [obind]. rewrite hb_pnt, hb_time, hb_color.
  set (c := if bin_long B then scan_pnt now else scan_row now). cbv zeta.
  assert (PN : point_new (w_hdr w) = mkPoint (zeros20 ++ repeat 0 (Z.to_nat (las_length (bin_has_time B) (bin_has_color B)) - 20)) (w_hdr w)).
  { unfold point_new. rewrite HR. f_equal. unfold zeros20. rewrite <- repeat_app. f_equal. unfold las_length. destruct (bin_has_time B), (bin_has_color B); reflexivity. }
  rewrite PN, sets. set (C0 := core (sc_x c) (sc_y c) (sc_z c) (sc_intensity c) 0 (sc_code c mod 256)).
  assert (L0 : length C0 = 20%nat) by apply core_length.
  assert (FIN : forall s T, is_fail s = true -> Z.of_nat (20 + length T) = las_length (bin_has_time B) (bin_has_color B) ->
    exists s' now' w', (let! p0 := set_echo (mkPoint (C0 ++ T) (w_hdr w)) (sc_echo c) in match write_point w p0 with Ok w' => Ok (s, now, w') | Throw _ => Ok (s, now, w) | UB u => UB u end) = Ok (s', now', w') /\ is_fail s' = true).
  { intros s0 T HS HT. unfold C0. rewrite fill_echo. cbn [obind].
    match goal with |- context [write_point w (mkPoint ?d _)] => destruct (write_no_ub w d HR) as (r & E & _) end.
    { rewrite app_length, core_length. exact HT. }
    destruct (write_point w _) in E |- *; try discriminate; eexists _, _, _; split; try reflexivity; exact HS. }
  clearbody C0 c. unfold set_bin_time, set_bin_color. destruct (bin_has_time B), (bin_has_color B); cbn [las_format] in HF.
  - change (repeat 0 (Z.to_nat (las_length true true) - 20)) with (repeat 0 8 ++ repeat 0 6). destruct S as [(-> & S) | (S & _)]; [|left; now rewrite uint_failed].
    destruct (uint_any (p + bin_core B) 4 (2 ^ 32 - 1) S) as (t & s1 & -> & S1). cbn [obind]. rewrite fill_time by (auto || reflexivity). cbn [obind].
    destruct S1 as [(-> & S1) | (S1 & _)]; [|left; now rewrite uint_failed].
    destruct (uint_any (p + bin_core B + 4) 1 0 S1) as (r & s2 & -> & S2). cbn [obind]. destruct S2 as [(-> & S2) | (S2 & _)]; [|left; now rewrite uint_failed].
    destruct (uint_any _ 1 0 S2) as (b & s3 & -> & S3). cbn [obind]. destruct S3 as [(-> & S3) | (S3 & _)]; [|left; now rewrite uint_failed].
    destruct (uint_any _ 1 0 S3) as (g & s4 & -> & S4). cbn [obind]. destruct S4 as [(-> & S4) | (S4 & _)]; [|left; now rewrite uint_failed].
    destruct (uint_any _ 1 0 S4) as (a & s5 & -> & S5). cbn [obind]. destruct S5 as [(-> & S5) | (S5 & _)]; [lia|].
    right. rewrite app_assoc. rewrite <- (app_nil_r (repeat 0 6)). rewrite (fill_color _ _ _ _ _ _ _ 28) by (rewrite ?app_length, ?le_enc_length, ?L0; auto || reflexivity). cbn [obind]. rewrite <- app_assoc.
    apply FIN; [exact S5|]. rewrite !app_length, !le_enc_length. reflexivity.
  - change (repeat 0 (Z.to_nat (las_length true false) - 20)) with (repeat 0 8 ++ []). destruct S as [(-> & S) | (S & _)]; [|left; now rewrite uint_failed].
    destruct (uint_any (p + bin_core B) 4 (2 ^ 32 - 1) S) as (t & s1 & -> & S1). cbn [obind]. rewrite fill_time by (auto || reflexivity). cbn [obind].
    destruct S1 as [(-> & S1) | (S1 & _)]; [lia|]. right. apply FIN; [exact S1|]. rewrite !app_length, !le_enc_length. reflexivity.
  - change (repeat 0 (Z.to_nat (las_length false true) - 20)) with (repeat 0 6 ++ []). cbn [obind]. destruct S as [(-> & S1) | (S & _)]; [|left; now rewrite uint_failed].
    destruct (uint_any (p + bin_core B) 1 0 S1) as (r & s2 & -> & S2). cbn [obind]. destruct S2 as [(-> & S2) | (S2 & _)]; [|left; now rewrite uint_failed].
    destruct (uint_any _ 1 0 S2) as (b & s3 & -> & S3). cbn [obind]. destruct S3 as [(-> & S3) | (S3 & _)]; [|left; now rewrite uint_failed].
    destruct (uint_any _ 1 0 S3) as (g & s4 & -> & S4). cbn [obind]. destruct S4 as [(-> & S4) | (S4 & _)]; [|left; now rewrite uint_failed].
    destruct (uint_any _ 1 0 S4) as (a & s5 & -> & S5). cbn [obind]. destruct S5 as [(-> & S5) | (S5 & _)]; [lia|].
    right. rewrite (fill_color _ _ _ _ _ _ _ 20) by (auto || reflexivity). cbn [obind]. apply FIN; [exact S5|]. rewrite !app_length, !le_enc_length. reflexivity.
  - change (repeat 0 (Z.to_nat (las_length false false) - 20)) with (@nil Z). cbn [obind]. destruct S as [(_ & S) | (S & _)]; [lia|]. right. apply FIN; [exact S|reflexivity].
Qed.
Lemma scan_loop_short n : forall i w old, get_format (w_hdr w) = las_format (bin_has_time B) (bin_has_color B) -> get_record_length (w_hdr w) = las_length (bin_has_time B) (bin_has_color B) ->
  (56 + i * bin_record B <= length B)%nat -> (length B + bin_record B < 56 + (i + n) * bin_record B)%nat -> length old = bin_core B ->
  scan_loop n hb (at_pos B (56 + i * bin_record B)) old w = Throw ERuntime.
Proof.
  pose proof core_le as BR.
  induction n as [|n IH]; intros i w old HF HR L1 L2 LO; [rewrite Nat.add_0_r in L2; lia|]. cbn [scan_loop].
  destruct (Nat.le_gt_cases (56 + S i * bin_record B) (length B)) as [L|L].
  - rewrite (one_scan_ok w _ old HF HR) by (cbn [Nat.add Nat.mul] in *; lia || exact LO).
    destruct (write_no_ub w (las_record_at B (56 + i * bin_record B)) HR) as (r & E & WH). { apply las_record_length. cbn [Nat.mul] in L. lia. }
    assert (X : scan_loop n hb (at_pos B (56 + S i * bin_record B)) (slice B (56 + i * bin_record B) (bin_core B)) r = Throw ERuntime).
    { apply IH; [now rewrite WH|now rewrite WH|exact L|replace (S i + n)%nat with (i + S n)%nat by lia; exact L2|]. apply slice_length. cbn [Nat.mul] in L. lia. }
    replace (56 + i * bin_record B + bin_record B)%nat with (56 + S i * bin_record B)%nat by (cbn [Nat.mul]; lia).
    destruct (write_point w _) in E |- *; try discriminate; apply Ok_inj in E; subst; cbn [obind]; exact X.
  - destruct (one_scan_short w (56 + i * bin_record B) old HF HR L1 ltac:(cbn [Nat.mul] in L; lia) LO) as [-> | (s & now & w' & -> & F)]; [reflexivity|]. cbn [obind].
    destruct n as [|n]; [exfalso; replace (i + 1)%nat with (S i) in L2 by lia; cbn [Nat.mul] in L2; lia|]. cbn [scan_loop]. unfold one_scan. rewrite read_failed by exact F. reflexivity.
Qed.
(** at the end of the file the struct keeps the last record *)
Lemma one_scan_nothing w p : bin_has_time B = false -> bin_has_color B = false -> get_record_length (w_hdr w) = 20 -> (p + bin_core B <= length B)%nat ->
  one_scan hb (at_pos B (length B)) (slice B p (bin_core B)) w =
  match write_point w (mkPoint (las_record_at B p) (w_hdr w)) with
  | Ok w' => Ok (mkIs B (length B) true true, slice B p (bin_core B), w')
  | Throw _ => Ok (mkIs B (length B) true true, slice B p (bin_core B), w)
  | UB u => UB u
  end.
Proof.
  intros HT HC HR L. unfold one_scan.
  assert (LC : (0 < bin_core B)%nat) by (unfold bin_core; destruct (bin_long B); lia).
  assert (RD : read_n (at_pos B (length B)) (slice B p (bin_core B)) = Ok (slice B p (bin_core B), mkIs B (length B) true true)).
  { unfold read_n. cbn [at_pos is_fail]. fold (at_pos B (length B)). rewrite slice_length by exact L. rewrite is_read_short by lia. rewrite skipn_all. cbn [List.length]. rewrite Nat.add_0_r. reflexivity. }
  rewrite RD. cbn [obind]. rewrite hb_pnt, hb_time, hb_color, HT, HC. pose proof (scan_core p L) as SC. cbv zeta in SC.
  set (c := if bin_long B then scan_pnt (slice B p (bin_core B)) else scan_row (slice B p (bin_core B))) in *. cbv zeta.
  assert (PN : point_new (w_hdr w) = mkPoint (zeros20 ++ []) (w_hdr w)) by (unfold point_new; rewrite HR; reflexivity).
  rewrite PN, sets. cbn [obind]. rewrite fill_echo, SC. cbn [obind]. unfold las_record_at. rewrite HT, HC. reflexivity.
Qed.
End BIN.

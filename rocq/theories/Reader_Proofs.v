(** Proofs about reading the public header block. *)
From Coq Require Import ZArith List Bool Lia String.
From Coq Require Import ZifyBool ZifyNat.
Import ListNotations.
From Verif Require Import Outcome Bytes Float64 CStr Vlr_Model Schema_Model Header_Model Point_Model
  Stream_Model Stream_Proofs Reader_Model IO_Spec.
Local Open Scope Z_scope.

Lemma u_at_range F o w : bytes_ok F -> 0 <= u_at F o w < pow256 w.
Proof.
  intros H. unfold u_at. pose proof (le_dec_bound (slice F o w) (slice_bytes F o w H)) as B.
  pose proof (slice_length_le F o w) as L.
  assert (pow256 (List.length (slice F o w)) <= pow256 w).
  { unfold pow256. apply Z.pow_le_mono_r; lia. }
  lia.
Qed.
Lemma u_at_mod F o w k : bytes_ok F -> k = 8 * Z.of_nat w -> u_at F o w mod 2 ^ k = u_at F o w.
Proof.
  intros H ->. apply Z.mod_small. pose proof (u_at_range F o w H). rewrite pow256_pow2 in H0. lia.
Qed.

(** The header after its fixed fields were read from [F] over header [h]. *)
Definition parsed (F : list Z) (h : header) (sc : schema) (comp : bool) : header :=
  let d o := f64_of_bits (u_at F o 8) in
  mkHeader (str "LASF") (u_at F 4 2) (u_at F 6 2) (slice F 8 16) (u_at F 24 1) (u_at F 25 1)
    (strncpy 32 (slice F 26 32)) (strncpy 32 (slice F 58 32)) (u_at F 90 2) (u_at F 92 2) (u_at F 94 2)
    (u_at F 96 4) (u_at F 100 4) (u_at F 107 4)
    ([u_at F 111 4; u_at F 115 4; u_at F 119 4; u_at F 123 4; u_at F 127 4] ++ skipn 5 (h_byret h))
    (d 131%nat, d 139%nat, d 147%nat) (d 155%nat, d 163%nat, d 171%nat)
    (d 179%nat, d 195%nat, d 211%nat) (d 187%nat, d 203%nat, d 219%nat)
    (h_vlrs h) (h_srs h) sc comp (h_pad h).

(** The rest of ReadHeader: VLRs, padding, extra bytes. *)
Definition header_rest (xml : vlr -> outcome schema) (h : header) (s : istream) (rl : Z) : outcome (header * istream) :=
  let! (h, s) := (if 0 <? h_nvlr h then read_vlrs xml s h else Ok (h, s)) in
  let! b := vlr_block_size h in
  let h := set_header_padding h (h_doff h - (h_hsize h + b)) in
  let s := if is_eof s then is_clear s else s in
  let s := is_seek s (h_doff h) in
  let! h := add_extra h rl in
  Ok (h, s).

Definition fmt_byte (F : list Z) : Z := u_at F 104 1.

(** What ReadHeader does with a file of at least 227 bytes. *)
Definition read_header_result (xml : vlr -> outcome schema) (F : list Z) (h : header) : outcome (header * istream) :=
  if negb (zlist_eqb (slice F 0 4) (str "LASF")) then Throw EInvalidArgument
  else if negb (u_at F 24 1 =? 1) then Throw EOutOfRange
  else if 3 <? u_at F 25 1 then Throw EOutOfRange
  else if u_at F 96 4 <? u_at F 94 2 then Throw ERuntime
  else if Z.testbit (fmt_byte F) 6 then Throw EDomain
  else if 5 <? Z.land (fmt_byte F) 63 then Throw EDomain
  else match set_format (h_schema h) (Z.land (fmt_byte F) 63) with
       | (sc, Ok _) => header_rest xml (parsed F h sc (Z.testbit (fmt_byte F) 7)) (at_pos F 227) (u_at F 105 2)
       | (_, Throw e) => Throw e
       | (_, UB u) => UB u
       end.

Lemma read_returns_ok F h b0 b1 b2 b3 b4 r : bytes_ok F -> (131 <= List.length F)%nat ->
  h_byret h = b0 :: b1 :: b2 :: b3 :: b4 :: r ->
  read_returns 5 0 (at_pos F 111) h =
  Ok (h_upd_byret h ([u_at F 111 4; u_at F 115 4; u_at F 119 4; u_at F 123 4; u_at F 127 4] ++ r), at_pos F 131).
Proof.
  intros HB HL E. cbn [read_returns].
  assert (SB : forall hh i v, List.length (h_byret hh) = List.length (h_byret h) -> 0 <= i < 5 ->
    set_by_return hh i v = Ok (h_upd_byret hh (list_set (h_byret hh) (Z.to_nat i) (v mod 2 ^ 32)))).
  { intros hh i v L Hi. unfold set_by_return. rewrite L, E. cbn [List.length].
    destruct (Z.leb_spec 0 i); [|lia]. destruct (Z.ltb_spec i (Z.of_nat (S (S (S (S (S (List.length r)))))))); [|lia].
    reflexivity. }
  rewrite read_uint_ok by lia. cbn [obind]. fold (u_at F 111 4).
  rewrite SB by (reflexivity || lia). cbn [obind]. rewrite E. change (Z.to_nat 0) with 0%nat. cbn [list_set].
  rewrite read_uint_ok by lia. cbn [obind]. change (111 + 4)%nat with 115%nat. fold (u_at F 115 4).
  change (0 + 1) with 1.
  rewrite SB by (lia || (rewrite E; reflexivity)). cbn [obind]. cbn [h_byret h_upd_byret]. change (Z.to_nat 1) with 1%nat. cbn [list_set].
  rewrite read_uint_ok by lia. cbn [obind]. change (115 + 4)%nat with 119%nat. fold (u_at F 119 4).
  change (1 + 1) with 2.
  rewrite SB by (lia || (rewrite E; reflexivity)). cbn [obind]. cbn [h_byret h_upd_byret]. change (Z.to_nat 2) with 2%nat. cbn [list_set].
  rewrite read_uint_ok by lia. cbn [obind]. change (119 + 4)%nat with 123%nat. fold (u_at F 123 4).
  change (2 + 1) with 3.
  rewrite SB by (lia || (rewrite E; reflexivity)). cbn [obind]. cbn [h_byret h_upd_byret]. change (Z.to_nat 3) with 3%nat. cbn [list_set].
  rewrite read_uint_ok by lia. cbn [obind]. change (123 + 4)%nat with 127%nat. fold (u_at F 127 4).
  change (3 + 1) with 4.
  rewrite SB by (lia || (rewrite E; reflexivity)). cbn [obind]. cbn [h_byret h_upd_byret]. change (Z.to_nat 4) with 4%nat. cbn [list_set].
  rewrite !(u_at_mod F _ 4 32) by (assumption || reflexivity).
  reflexivity.
Qed.

Lemma slice_str F : slice F 0 4 = str "LASF" -> strncpy eFileSignatureSize (slice F 0 4) = str "LASF".
Proof. intros ->. reflexivity. Qed.

Lemma read_header_eq xml s h F : is_fail s = false -> is_data s = F -> bytes_ok F -> (227 <= List.length F)%nat ->
  List.length (h_byret h) = 7%nat ->
  read_header xml s h = read_header_result xml F h.
Proof.
  intros Hf HD HB HL Hb. unfold read_header, read_header_result.
  rewrite is_seek_ok by (assumption || lia). rewrite HD. change (Z.to_nat 0) with 0%nat.
  rewrite read_string_ok by lia. cbn [obind]. unfold set_file_signature.
  unfold eFileSignatureSize at 1. rewrite firstn_all2 by apply slice_length_le. unfold FileSignature.
  destruct (zlist_eqb (slice F 0 4) (str "LASF")) eqn:ES; [|reflexivity].
  apply zlist_eqb_spec in ES. rewrite slice_str by assumption. cbn [negb].
  destruct h as [hsig hsrc hres hguid hmaj hmin hsys hsw hdoy hyear hhs hdo hnv hnp hbr hsc hof hmx hmn hvl hsr hschema hcomp hpad].
  cbn [h_byret] in Hb. cbn [h_schema].
  cbn [obind]. rewrite read_uint_ok by lia. cbn [obind].
  rewrite read_uint_ok by lia. cbn [obind].
  rewrite read_n_ok by (rewrite repeat_length; lia). cbn [obind]. rewrite repeat_length.
  rewrite read_uint_ok by lia. cbn [obind]. cbn [Nat.add].
  fold (u_at F 4 2) (u_at F 6 2) (u_at F 24 1).
  unfold set_version_major, eVersionMajorMin, eVersionMajorMax.
  destruct (Z.eqb_spec (u_at F 24 1) 1) as [EV|EV]; cbn [negb].
  2:{ destruct (Z.ltb_spec (u_at F 24 1) 1), (Z.ltb_spec 1 (u_at F 24 1)); cbn [orb obind]; reflexivity || lia. }
  destruct (Z.ltb_spec (u_at F 24 1) 1); [lia|]. destruct (Z.ltb_spec 1 (u_at F 24 1)); [lia|]. cbn [orb obind].
  rewrite read_uint_ok by lia. cbn [obind Nat.add]. fold (u_at F 25 1).
  unfold set_version_minor, eVersionMinorMax.
  destruct (Z.ltb_spec 3 (u_at F 25 1)) as [EM|EM]; [reflexivity|]. cbn [obind].
  rewrite read_string_ok by lia. cbn [obind Nat.add]. unfold set_system_id, eSystemIdSize.
  rewrite (slice_length F 26 32) by lia. change (32 <? 32)%nat with false. cbn iota. cbn [obind].
  rewrite read_string_ok by lia. cbn [obind Nat.add]. unfold set_software_id, eSoftwareIdSize.
  rewrite (slice_length F 58 32) by lia. change (32 <? 32)%nat with false. cbn iota. cbn [obind].
  rewrite read_uint_ok by lia. cbn [obind Nat.add]. fold (u_at F 90 2).
  rewrite read_uint_ok by lia. cbn [obind Nat.add]. fold (u_at F 92 2).
  rewrite read_uint_ok by lia. cbn [obind Nat.add]. fold (u_at F 94 2).
  rewrite read_uint_ok by lia. cbn [obind Nat.add]. fold (u_at F 96 4).
  unfold set_source_id, set_reserved, set_creation_doy, set_creation_year, set_header_size.
  cbn [h_upd_sig h_upd_srcid h_upd_reserved h_upd_guid h_upd_vmaj h_upd_vmin h_upd_sysid h_upd_swid h_upd_doy h_upd_year h_upd_hsize
       h_sig h_srcid h_reserved h_guid h_vmaj h_vmin h_sysid h_swid h_doy h_year h_hsize h_doff h_nvlr h_npts h_byret h_scale h_offset h_max h_min h_vlrs h_srs h_schema h_comp h_pad].
  rewrite !(u_at_mod F _ 2 16) by (assumption || reflexivity).
  destruct (Z.ltb_spec (u_at F 96 4) (u_at F 94 2)) as [ED|ED]; [reflexivity|].
  rewrite read_uint_ok by lia. cbn [obind Nat.add]. fold (u_at F 100 4).
  rewrite read_uint_ok by lia. cbn [obind Nat.add]. fold (u_at F 104 1). fold (fmt_byte F).
  unfold set_data_offset, set_records_count.
  cbn [h_upd_doff h_upd_vlrs
       h_sig h_srcid h_reserved h_guid h_vmaj h_vmin h_sysid h_swid h_doy h_year h_hsize h_doff h_nvlr h_npts h_byret h_scale h_offset h_max h_min h_vlrs h_srs h_schema h_comp h_pad].
  rewrite !(u_at_mod F _ 4 32) by (assumption || reflexivity).
  destruct (Z.testbit (fmt_byte F) 6) eqn:E6.
  { rewrite !andb_false_r. reflexivity. }
  assert (EB : forall hh : header, (if negb (Z.testbit (fmt_byte F) 7) && negb false then Ok (h_upd_comp hh false)
     else if Z.testbit (fmt_byte F) 7 && negb false then Ok (h_upd_comp hh true) else Throw EDomain)
     = Ok (h_upd_comp hh (Z.testbit (fmt_byte F) 7))).
  { intros hh. destruct (Z.testbit (fmt_byte F) 7); reflexivity. }
  rewrite EB. cbn [obind]. clear EB.
  destruct (Z.leb_spec (Z.land (fmt_byte F) 63) 5) as [EF|EF].
  2:{ destruct (Z.ltb_spec 5 (Z.land (fmt_byte F) 63)); [reflexivity|lia]. }
  destruct (Z.ltb_spec 5 (Z.land (fmt_byte F) 63)); [lia|].
  unfold set_fmt, set_header_format.
  match goal with |- context [set_format (h_schema ?X) ?f] => change (h_schema X) with hschema end.
  destruct (set_format hschema (Z.land (fmt_byte F) 63)) as [sc r].
  destruct r as [[]|e|u]; [|reflexivity|reflexivity]. cbn [obind].
  rewrite read_uint_ok by lia. cbn [obind Nat.add]. fold (u_at F 105 2).
  rewrite read_uint_ok by lia. cbn [obind Nat.add]. fold (u_at F 107 4).
  unfold set_point_count. rewrite (u_at_mod F _ 4 32) by (assumption || reflexivity).
  destruct hbr as [|b0 [|b1 [|b2 [|b3 [|b4 r]]]]]; try discriminate Hb.
  rewrite (read_returns_ok F _ b0 b1 b2 b3 b4 r) by (assumption || lia || reflexivity). cbn [obind].
  rewrite read_f64_ok by lia. cbn [obind Nat.add]. fold (u_at F 131 8).
  rewrite read_f64_ok by lia. cbn [obind Nat.add]. fold (u_at F 139 8).
  rewrite read_f64_ok by lia. cbn [obind Nat.add]. fold (u_at F 147 8).
  rewrite read_f64_ok by lia. cbn [obind Nat.add]. fold (u_at F 155 8).
  rewrite read_f64_ok by lia. cbn [obind Nat.add]. fold (u_at F 163 8).
  rewrite read_f64_ok by lia. cbn [obind Nat.add]. fold (u_at F 171 8).
  rewrite read_f64_ok by lia. cbn [obind Nat.add]. fold (u_at F 179 8).
  rewrite read_f64_ok by lia. cbn [obind Nat.add]. fold (u_at F 187 8).
  rewrite read_f64_ok by lia. cbn [obind Nat.add]. fold (u_at F 195 8).
  rewrite read_f64_ok by lia. cbn [obind Nat.add]. fold (u_at F 203 8).
  rewrite read_f64_ok by lia. cbn [obind Nat.add]. fold (u_at F 211 8).
  rewrite read_f64_ok by lia. cbn [obind Nat.add]. fold (u_at F 219 8).
  reflexivity.
Qed.

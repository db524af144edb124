(** Writing from a header that asks for padding between the VLRs and the data. *)
From Coq Require Import ZArith List Bool Lia String.
From Coq Require Import ZifyBool ZifyNat.
Import ListNotations.
From Verif Require Import Outcome Bytes Float64 CStr Vlr_Model Schema_Model Header_Model Point_Model Stream_Model Stream_Proofs
  IO_Spec Reader_Spec Writer_Model Writer_Api Writer_Proofs Writer_File.
Local Open Scope Z_scope.
Local Notation length := List.length (only parsing).

Definition gap_ok (sv : schema -> vlr) (h : header) (g : Z) : Prop :=
  let L := written_vlrs sv h in
  header_wf h /\ h_comp h = false /\ Forall (fun v => is_crs v = true) (h_srs h) /\ is_custom (h_schema h) = false /\
  Forall (fun v => vlr_wf v /\ v_size v = Z.of_nat (length (v_data v))) L /\
  227 <= h_hsize h /\ h_doff h = h_hsize h + vlrs_size L + g /\ h_pad h = g /\ 0 < g /\ h_doff h + 2 < 2 ^ 31.
Definition gap_header (sv : schema -> vlr) (h : header) (g : Z) : header :=
  set_data_offset (set_header_padding (h_upd_vlrs h (Z.of_nat (length (written_vlrs sv h))) (written_vlrs sv h)) g) (h_doff h).

Lemma prepare_gap sv h g : gap_ok sv h g -> prepare_header sv h = Ok (gap_header sv h g).
Proof.
  intros (Hwf & Hc & Hsrs & Hcu & Hl & Hh & Hd & Hp & Hg & Hb). unfold prepare_header.
  pose proof (prep_vlrs sv h Hsrs ltac:(congruence)) as P. cbn zeta in P.
  set (L := written_vlrs sv h) in *.
  set (h1 := set_georeference (delete_vlrs h (str "liblas") 2112)) in *.
  set (h2 := if is_custom (h_schema h1) then add_vlr (delete_vlrs h1 (str "liblas") 7) (sv (h_schema h1)) else h1) in *.
  assert (Hc2 : h_comp h2 = false).
  { change (h_comp h2) with (h_comp (delete_vlrs h2 (str "laszip encoded") 22204)). rewrite P. exact Hc. }
  rewrite Hc2, P. clear P Hc2. clearbody h1 h2.
  pose proof (vlrs_size_count L) as HC. pose proof (vlrs_size_nonneg L) as HN.
  rewrite (Z.mod_small (Z.of_nat (length L))) by lia.
  assert (B : forall x, h_nvlr x = Z.of_nat (length L) -> h_vlrs x = L -> vlr_block_size x = Ok (vlrs_size L)).
  { intros x E1 E2. rewrite vlr_block_ok; rewrite ?E2; auto. lia. }
  unfold new_padding. rewrite B by reflexivity. cbn [obind h_upd_vlrs h_doff h_hsize h_pad].
  replace (h_doff h - (vlrs_size L + h_hsize h)) with g by lia.
  rewrite (to_signed_id' 32 g) by (unfold in_signed; lia).
  destruct (Z.ltb_spec g 0); [lia|]. rewrite Hp, Z.leb_refl. cbn [obind].
  rewrite B by reflexivity. cbn [obind]. f_equal. unfold gap_header. fold L.
  cbn [h_hsize set_header_padding h_pad h_upd_vlrs h_upd_pad]. rewrite (Z.mod_small g) by lia. rewrite Hd. reflexivity.
Qed.

Lemma gap_header_wf sv h g : gap_ok sv h g -> header_wf (gap_header sv h g).
Proof.
  intros (Hwf & Hc & Hsrs & Hcu & Hl & Hh & Hd & Hp & Hg & Hb). unfold gap_header.
  apply wf_set_doff, wf_set_pad, wf_set_vlrs; auto.
  - eapply Forall_impl; [|exact Hl]. intros v [Hv _]. exact Hv.
  - pose proof (vlrs_size_count (written_vlrs sv h)). unfold in_unsigned. lia.
Qed.
Lemma gap_header_fields sv h g : gap_ok sv h g -> let h0 := gap_header sv h g in
  h_hsize h0 = h_hsize h /\ h_vlrs h0 = written_vlrs sv h /\ h_nvlr h0 = Z.of_nat (length (written_vlrs sv h)) /\
  h_doff h0 = h_doff h /\ h_pad h0 = g /\ h_vmin h0 = h_vmin h.
Proof.
  intros (Hwf & Hc & Hsrs & Hcu & Hl & Hh & Hd & Hp & Hg & Hb). pose proof (vlrs_size_nonneg (written_vlrs sv h)).
  unfold gap_header. cbn. rewrite !Z.mod_small by lia. repeat split.
Qed.

(** The length of the file once the VLRs are written. *)
Definition vlrs_file (sv : schema -> vlr) (h : header) (g : Z) : list Z :=
  then_at (hdr_bytes (gap_header sv h g)) (Z.to_nat (h_hsize h)) (vlrs_image (written_vlrs sv h)).

(** more than two bytes of padding: the writer reads past the end of a two-byte
    string literal *)
Lemma writer_new_gap sv h g : gap_ok sv h g ->
  writer_new sv (os_open []) h =
  if 2 <? g then UB UBOutOfBounds
  else
    let! (s, h') := write_pad_signature
      (os_at (vlrs_file sv h g ++ repeat 0 (Z.to_nat (h_doff h))) (length (vlrs_file sv h g) + Z.to_nat (h_doff h))) (gap_header sv h g) in
    Ok (mkWriter (os_seek s (h_doff h')) h' 0).
Proof.
  intros HG. pose proof (prepare_gap sv h g HG) as P. pose proof (gap_header_wf sv h g HG) as W0.
  pose proof (gap_header_fields sv h g HG) as FS. cbn zeta in FS. destruct FS as (F1 & F2 & F3 & F4 & F5 & F6).
  destruct HG as (Hwf & Hc & Hsrs & Hcu & Hl & Hh & Hd & Hp & Hg & Hb).
  set (L := written_vlrs sv h) in *. set (h0 := gap_header sv h g) in *.
  pose proof (vlrs_size_count L) as HC. pose proof (vlrs_size_nonneg L) as HN.
  assert (HI : Forall vlr_wf L) by (eapply Forall_impl; [|exact Hl]; intros v [Hv _]; exact Hv).
  pose proof (vlrs_image_len L HI) as IL.
  assert (BS : vlr_block_size h0 = Ok (vlrs_size L)) by (rewrite vlr_block_ok; rewrite ?F2; auto; lia).
  assert (RQ : required_header_size h0 = Ok (h_hsize h + vlrs_size L)).
  { unfold required_header_size. rewrite BS. cbn [obind]. rewrite F1, to_signed_id'; [f_equal; lia|lia|].
    unfold in_signed. lia. }
  assert (HLEN : (length (hdr_bytes h0) <= Z.to_nat (h_hsize h))%nat) by (rewrite hdr_bytes_len by assumption; lia).
  unfold writer_new, writer_write_header, write_header. cbn [w_os w_hdr w_count os_open os_data].
  cbn [length Nat.eqb negb]. rewrite P. cbn [obind].
  change (os_seek_end (os_seek (os_open []) 0) 0) with (os_at [] (length (@nil Z))).
  rewrite os_write_all_end. cbn [obind app length Nat.add].
  fold (hdr_bytes h0). unfold write_vlrs. rewrite F1, RQ. cbn [obind].
  rewrite os_seek_at by lia. rewrite F4.
  rewrite to_signed_id' by (unfold in_signed; lia).
  destruct (Z.ltb_spec (h_doff h - (h_hsize h + vlrs_size L)) 0); [lia|]. cbn [obind].
  rewrite F3, Nat2Z.id, F2.
  replace (os_at (hdr_bytes h0) (Z.to_nat (h_hsize h)))
    with (os_at (then_at (hdr_bytes h0) (Z.to_nat (h_hsize h)) []) (Z.to_nat (h_hsize h) + length (@nil Z)))
    by (cbn [then_at length]; now rewrite Nat.add_0_r).
  rewrite write_vlr_loop_then by assumption. cbn [obind app].
  rewrite F5. destruct (Z.ltb_spec 0 g); [|lia]. rewrite BS. cbn [obind]. unfold literal_zeros.
  destruct (Z.leb_spec g 2); destruct (Z.ltb_spec 2 g); try lia; cbn [obind]; [|reflexivity].
  rewrite F1. unfold os_seek_end. cbn [os_at os_data]. fold (vlrs_file sv h g).
  fold (os_at (vlrs_file sv h g) (Z.to_nat (h_hsize h) + length (vlrs_image L))).
  assert (EV : then_at (hdr_bytes h0) (Z.to_nat (h_hsize h)) (vlrs_image L) = vlrs_file sv h g) by reflexivity. rewrite EV.
  rewrite (Z.mod_small (h_hsize h + vlrs_size L)) by lia.
  rewrite os_seek_at by lia. rewrite os_write_at.
  rewrite file_write_end; [|lia|intros X; apply (f_equal (@List.length Z)) in X; rewrite repeat_length in X; cbn [List.length] in X; lia].
  rewrite repeat_length.
  assert (ED : repeat 0 (Z.to_nat (Z.of_nat (length (vlrs_file sv h g)) + (h_hsize h + vlrs_size L)) - length (vlrs_file sv h g)) ++ repeat 0 (Z.to_nat g) =
    repeat 0 (Z.to_nat (h_doff h))).
  { rewrite <- repeat_app. f_equal. lia. }
  rewrite ED. cbn [obind].
  replace (Z.to_nat (Z.of_nat (length (vlrs_file sv h g)) + (h_hsize h + vlrs_size L)) + Z.to_nat g)%nat
    with (length (vlrs_file sv h g) + Z.to_nat (h_doff h))%nat by lia.
  destruct (write_pad_signature _ h0) as [[s h']|e|u]; reflexivity.
Qed.

Lemma file_write_over X T bs : file_write (X ++ T) (length X) bs = X ++ bs ++ skipn (length bs) T.
Proof.
  destruct bs as [|b bs]; [reflexivity|]. unfold file_write. rewrite firstn_app, firstn_all, Nat.sub_diag. cbn [firstn].
  rewrite app_nil_r. replace (length X - length (X ++ T))%nat with 0%nat by (rewrite app_length; lia). cbn [repeat app].
  f_equal. f_equal. rewrite skipn_app, skipn_all2 by lia. cbn [app]. now rewrite Nat.add_comm, Nat.add_sub.
Qed.
Lemma then_at_app D p T U : T <> [] -> then_at D p (T ++ U) = then_at D p T ++ U.
Proof. intros H. destruct T as [|t T]; [congruence|]. cbn [then_at app]. rewrite <- !app_assoc. reflexivity. Qed.
Lemma then_at_over D p T U bs : (length D <= p)%nat -> T <> [] ->
  file_write (then_at D p (T ++ U)) (p + length T) bs = then_at D p (T ++ bs ++ skipn (length bs) U).
Proof.
  intros HD HT. rewrite !then_at_app by assumption. rewrite <- (then_at_length D p T HD HT) . now rewrite file_write_over.
Qed.

Lemma write_points_over h D p T U c ps : (length D <= p)%nat -> T <> [] ->
  Forall (point_fits (get_record_length h)) ps ->
  write_points (mkWriter (os_at (then_at D p (T ++ U)) (p + length T)) h c) ps =
  Ok (mkWriter (os_at (then_at D p (T ++ records (get_record_length h) ps ++ skipn (length (records (get_record_length h) ps)) U))
                      (p + length (T ++ records (get_record_length h) ps))) h
               (match ps with [] => c | _ => (c + Z.of_nat (length ps)) mod 2 ^ 32 end)).
Proof.
  intros HD HT HP. revert T U c HT. induction HP as [|q ps [Hq Hne] HP IH]; intros T U c HT.
  - cbn [write_points records map List.concat List.length skipn app]. now rewrite app_nil_r.
  - cbn [write_points]. unfold write_point. cbn [w_hdr w_os w_count].
    set (n := Z.to_nat (get_record_length h)).
    destruct (p_data q) as [|b bs] eqn:E; [congruence|]. rewrite <- E.
    destruct (Nat.ltb_spec (length (p_data q)) n) as [C|C].
    { unfold n in C. rewrite <- E in Hq. lia. }
    change (firstn n (p_data q)) with (record_of (get_record_length h) q).
    rewrite os_write_at, then_at_over by assumption. cbn [obind].
    rewrite app_assoc. replace (p + length T + length (record_of (get_record_length h) q))%nat
      with (p + length (T ++ record_of (get_record_length h) q))%nat by (rewrite app_length; lia).
    rewrite IH by (intros X; apply app_eq_nil in X; tauto). unfold records. cbn [map List.concat].
    fold (records (get_record_length h) ps). rewrite <- !app_assoc, (app_length (record_of _ q)).
    rewrite (Nat.add_comm (length (record_of (get_record_length h) q))), <- skipn_skipn.
    f_equal. f_equal. destruct ps as [|q2 ps]; [reflexivity|].
    rewrite Zplus_mod_idemp_l. f_equal. cbn [List.length]. lia.
Qed.

(** The bytes in the gap. *)
Definition gap_bytes (h : header) (g : Z) : list Z := if h_vmin h =? 0 then [204; 221] else repeat 0 (Z.to_nat g).

Lemma padded_file sv h g : gap_ok sv h g ->
  vlrs_file sv h g ++ repeat 0 (Z.to_nat (h_doff h)) =
  then_at (hdr_bytes (gap_header sv h g)) (Z.to_nat (h_hsize h))
    (vlrs_image (written_vlrs sv h) ++ repeat 0 (Z.to_nat g) ++ repeat 0 (length (vlrs_file sv h g))).
Proof.
  intros HG. pose proof (gap_header_wf sv h g HG) as W0.
  destruct HG as (Hwf & Hc & Hsrs & Hcu & Hl & Hh & Hd & Hp & Hg & Hb).
  set (L := written_vlrs sv h) in *.
  assert (HI : Forall vlr_wf L) by (eapply Forall_impl; [|exact Hl]; intros v [Hv _]; exact Hv).
  pose proof (vlrs_image_len L HI) as IL. pose proof (hdr_bytes_len _ W0) as HL. set (D := hdr_bytes (gap_header sv h g)) in *.
  assert (EV : vlrs_file sv h g = then_at D (Z.to_nat (h_hsize h)) (vlrs_image L)) by reflexivity.
  rewrite <- repeat_app. destruct (vlrs_image L) as [|b bs] eqn:EI.
  - cbn [List.length] in IL. rewrite EV. cbn [then_at app].
    assert (NZ : repeat 0 (Z.to_nat g + length D) <> []) by (intros X; apply (f_equal (@List.length Z)) in X; rewrite repeat_length in X; cbn [List.length] in X; lia).
    destruct (repeat 0 (Z.to_nat g + length D)) as [|z zs] eqn:EZ; [congruence|]. cbn [then_at]. rewrite <- EZ, <- repeat_app. f_equal. f_equal. lia.
  - rewrite then_at_app by discriminate. rewrite <- EV. f_equal. f_equal. rewrite EV, then_at_length by (discriminate || lia). lia.
Qed.

Lemma gap_image sv h g ps : gap_ok sv h g -> g <= 2 -> h_vmin h <> 0 \/ g = 2 ->
  Forall (point_fits (get_record_length h)) ps -> Z.of_nat (length ps) < 2 ^ 32 ->
  let recs := records (get_record_length h) ps in
  write_file sv h ps =
  Ok (then_at (hdr_bytes (set_point_count (gap_header sv h g) (Z.of_nat (length ps)))) (Z.to_nat (h_hsize h))
        (vlrs_image (written_vlrs sv h) ++ gap_bytes h g ++ recs ++ repeat 0 (length (vlrs_file sv h g) - length recs))).
Proof.
  intros HG Hg2 Hv HP HN recs. unfold write_file, write_session. rewrite writer_new_gap with (g := g) by assumption.
  destruct (Z.ltb_spec 2 g); [lia|]. rewrite padded_file by assumption.
  pose proof (gap_header_wf sv h g HG) as W0. pose proof (gap_header_fields sv h g HG) as FS. cbn zeta in FS. destruct FS as (F1 & F2 & F3 & F4 & F5 & F6).
  destruct HG as (Hwf & Hc & Hsrs & Hcu & Hl & Hh & Hd & Hp & Hg & Hb).
  set (L := written_vlrs sv h) in *. set (h0 := gap_header sv h g) in *.
  assert (HI : Forall vlr_wf L) by (eapply Forall_impl; [|exact Hl]; intros v [Hv0 _]; exact Hv0).
  pose proof (vlrs_image_len L HI) as IL. pose proof (hdr_bytes_len _ W0) as HL.
  pose proof (vlrs_size_count L) as HC. pose proof (vlrs_size_nonneg L) as HNn.
  set (e := length (vlrs_file sv h g)) in *. clearbody e.
  assert (HLEN : (length (hdr_bytes h0) <= Z.to_nat (h_hsize h))%nat) by lia.
  assert (Hvm : in_unsigned 8 (h_vmin h)) by apply Hwf. unfold in_unsigned in Hvm.
  assert (G0 : gap_bytes h g <> [] /\ length (gap_bytes h g) = Z.to_nat g).
  { unfold gap_bytes. destruct (Z.eqb_spec (h_vmin h) 0) as [V|V].
    - assert (g = 2) as -> by tauto. split; [discriminate|reflexivity].
    - rewrite repeat_length. split; [|reflexivity]. intros X. apply (f_equal (@List.length Z)) in X. rewrite repeat_length in X. cbn [List.length] in X. lia. }
  destruct G0 as (G0 & GL).
  assert (ST : write_pad_signature (os_at (then_at (hdr_bytes h0) (Z.to_nat (h_hsize h)) (vlrs_image L ++ repeat 0 (Z.to_nat g) ++ repeat 0 e))
       (e + Z.to_nat (h_doff h))) h0 =
     Ok (os_at (then_at (hdr_bytes h0) (Z.to_nat (h_hsize h)) ((vlrs_image L ++ gap_bytes h g) ++ repeat 0 e))
         (if (h_vmin h =? 0)%Z then Z.to_nat (h_doff h) else (e + Z.to_nat (h_doff h))%nat), h0)).
  { unfold write_pad_signature. rewrite F6, <- app_assoc. unfold gap_bytes. destruct (Z.eqb_spec (h_vmin h) 0) as [V|V].
    - assert (g = 2) as EG by tauto. rewrite V. change (0 <? 0) with false. cbn iota.
      assert (BS : vlr_block_size h0 = Ok (vlrs_size L)) by (rewrite vlr_block_ok; rewrite ?F2; auto; lia).
      assert (RQ : required_header_size h0 = Ok (h_hsize h + vlrs_size L)).
      { unfold required_header_size. rewrite BS. cbn [obind]. rewrite F1, to_signed_id'; [f_equal; lia|lia|].
        unfold in_signed. lia. }
      rewrite RQ. cbn [obind]. rewrite F4, to_signed_id'; [|lia|unfold in_signed; lia].
      destruct (Z.ltb_spec (h_doff h - (h_hsize h + vlrs_size L)) 2); [lia|]. cbn [obind]. rewrite F4.
      rewrite (Z.mod_small (h_doff h - 2)) by lia. rewrite os_seek_at by lia. rewrite os_write_at.
      replace (Z.to_nat (h_doff h - 2)) with (Z.to_nat (h_hsize h) + length (vlrs_image L))%nat by lia.
      rewrite EG. change (repeat 0 (Z.to_nat 2)) with [0; 0].
      assert (W1 : file_write (then_at (hdr_bytes h0) (Z.to_nat (h_hsize h)) (vlrs_image L ++ [0; 0] ++ repeat 0 e))
         (Z.to_nat (h_hsize h) + length (vlrs_image L)) [204] = then_at (hdr_bytes h0) (Z.to_nat (h_hsize h)) ((vlrs_image L ++ [204]) ++ [0] ++ repeat 0 e)).
      { rewrite <- app_assoc. destruct (vlrs_image L) as [|b bs] eqn:EI.
        - cbn [app List.length]. rewrite Nat.add_0_r. cbn [then_at].
          rewrite app_assoc, (app_assoc (hdr_bytes h0)). set (X := hdr_bytes h0 ++ repeat 0 _).
          assert (LX : length X = Z.to_nat (h_hsize h)) by (unfold X; rewrite app_length, repeat_length; lia).
          rewrite <- LX. rewrite file_write_over. reflexivity.
        - rewrite then_at_over by (assumption || discriminate). reflexivity. }
      rewrite W1. cbn [obind]. rewrite os_write_at.
      replace (Z.to_nat (h_hsize h) + length (vlrs_image L) + length [204%Z])%nat with (Z.to_nat (h_hsize h) + length (vlrs_image L ++ [204%Z]))%nat
        by (rewrite app_length; cbn [List.length]; lia).
      rewrite then_at_over; [|assumption|intros X; apply app_eq_nil in X; destruct X; discriminate].
      cbn [obind List.length skipn app]. rewrite <- app_assoc. cbn [app].
      assert (PE : (Z.to_nat (h_hsize h) + length (vlrs_image L ++ [204%Z]) + 1)%nat = Z.to_nat (h_doff h)) by (rewrite app_length; cbn [List.length]; lia).
      rewrite PE. reflexivity.
    - destruct (Z.ltb_spec 0 (h_vmin h)); [|lia]. reflexivity. }
  rewrite ST. clear ST. cbn [obind]. rewrite F4.
  assert (SK : forall D q, os_seek (os_at D q) (h_doff h) = os_at D (Z.to_nat (h_hsize h) + length (vlrs_image L ++ gap_bytes h g))).
  { intros D q. rewrite os_seek_at by lia. f_equal. rewrite app_length, GL. lia. }
  rewrite SK.
  change (get_record_length h) with (get_record_length h0) in HP, recs.
  rewrite write_points_over; [|exact HLEN|intros X; apply app_eq_nil in X; tauto|exact HP]. cbn [obind].
  assert (EC : match ps with [] => 0 | _ :: _ => (0 + Z.of_nat (length ps)) mod 2 ^ 32 end = Z.of_nat (length ps)).
  { destruct ps as [|q ps]; [reflexivity|]. rewrite Z.add_0_l. apply Z.mod_small. lia. }
  rewrite EC. fold recs.
  assert (SR : skipn (length recs) (repeat 0 e) = repeat 0 (e - length recs)).
  { clear. generalize (length recs). intros n. revert e. induction n as [|n IH]; intros e; [cbn [skipn]; now rewrite Nat.sub_0_r|].
    destruct e as [|e]; [reflexivity|]. cbn [repeat skipn Nat.sub]. apply IH. }
  rewrite SR. eapply writer_close_ok; [exact W0|lia|]. now rewrite <- app_assoc.
Qed.

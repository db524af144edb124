(** Proofs about the writer: whole files. *)
From Coq Require Import ZArith List Bool Lia String.
From Coq Require Import ZifyBool ZifyNat.
Import ListNotations.
From Verif Require Import Outcome Bytes Float64 CStr Vlr_Model Schema_Model Header_Model Point_Model
  Stream_Model Stream_Proofs Writer_Model IO_Spec Writer_Api Writer_Proofs.
Local Open Scope Z_scope.

(** ** [then_at] *)
Lemma then_at_length D p T : (length D <= p)%nat -> T <> [] -> length (then_at D p T) = (p + length T)%nat.
Proof.
  intros H HT. unfold then_at. destruct T as [|t T]; [congruence|].
  rewrite !app_length, repeat_length. lia.
Qed.
Lemma then_at_write D p T bs : (length D <= p)%nat ->
  file_write (then_at D p T) (p + length T) bs = then_at D p (T ++ bs).
Proof.
  intros H. destruct T as [|t T].
  - cbn [app length]. rewrite Nat.add_0_r. destruct bs as [|b bs]; [reflexivity|].
    cbn [then_at]. rewrite file_write_end by (congruence || lia). reflexivity.
  - rewrite <- (then_at_length D p (t :: T)) by (congruence || lia).
    rewrite file_write_app. cbn [then_at app]. now rewrite <- !app_assoc.
Qed.
Lemma then_at_os_write D p T bs : (length D <= p)%nat ->
  os_write (os_at (then_at D p T) (p + length T)) bs =
  Ok (os_at (then_at D p (T ++ bs)) (p + length (T ++ bs))).
Proof. intros H. rewrite os_write_at, then_at_write, app_length, Nat.add_assoc by lia. reflexivity. Qed.
Lemma then_at_write_all D p T cs : (length D <= p)%nat ->
  os_write_all (os_at (then_at D p T) (p + length T)) cs =
  Ok (os_at (then_at D p (T ++ List.concat cs)) (p + length (T ++ List.concat cs))).
Proof.
  intros H. revert T. induction cs as [|c cs IH]; intros T.
  - cbn [os_write_all List.concat]. now rewrite app_nil_r.
  - cbn [os_write_all List.concat]. rewrite then_at_os_write by lia. cbn [obind]. rewrite IH, <- app_assoc. reflexivity.
Qed.
(** overwriting a part of [D] *)
Lemma then_at_overwrite A B C p T bs : length bs = length B ->
  file_write (then_at (A ++ B ++ C) p T) (length A) bs = then_at (A ++ bs ++ C) p T.
Proof.
  intros H. destruct T as [|t T]; cbn [then_at]; [now apply file_write_in|].
  rewrite <- !app_assoc. rewrite file_write_in by assumption.
  f_equal. f_equal. f_equal. f_equal. f_equal. rewrite !app_length. lia.
Qed.

Lemma write_vlr_loop_then D p T l : Forall (fun v => vlr_wf v /\ v_size v = Z.of_nat (length (v_data v))) l ->
  (length D <= p)%nat ->
  write_vlr_loop (length l) l (os_at (then_at D p T) (p + length T)) =
  Ok (os_at (then_at D p (T ++ vlrs_image l)) (p + length (T ++ vlrs_image l))).
Proof.
  intros Hl Hp. revert T. induction Hl as [|v l [Hw Hc] Hl IH]; intros T.
  - cbn [length write_vlr_loop vlrs_image map List.concat]. now rewrite app_nil_r.
  - cbn [length write_vlr_loop]. rewrite then_at_write_all by lia. cbn [obind].
    rewrite vlr_chunks_image by assumption. rewrite IH. unfold vlrs_image. cbn [map List.concat].
    now rewrite <- app_assoc.
Qed.

(** ** splitting the header block around the data offset and the point count *)
Definition pre_k (h : header) (k : nat) : nat := if h_vmin h =? 0 then (k - 1)%nat else k.
Definition hA (k : nat) (h : header) : list Z := List.concat (firstn (pre_k h k) (header_chunks h)).
Definition hC (k : nat) (h : header) : list Z := List.concat (skipn (S (pre_k h k)) (header_chunks h)).

Lemma hdr_split h k c : nth_error (header_chunks h) (pre_k h k) = Some c ->
  hdr_bytes h = hA k h ++ c ++ hC k h.
Proof.
  intros H. unfold hdr_bytes, hA, hC.
  rewrite <- (firstn_skipn (pre_k h k) (header_chunks h)) at 1.
  rewrite concat_app. f_equal.
  assert (E : skipn (pre_k h k) (header_chunks h) = c :: skipn (S (pre_k h k)) (header_chunks h)).
  { revert H. generalize (pre_k h k) as n. generalize (header_chunks h) as l.
    induction l as [|x l IH]; intros [|n] H; try discriminate; cbn in H.
    - inversion H; reflexivity.
    - cbn [skipn]. now apply IH. }
  rewrite E. reflexivity.
Qed.
Lemma hA_len h k : header_wf h ->
  length (hA k h) = offset_of (if h_vmin h =? 0 then chunk_lens0 else chunk_lens) (pre_k h k).
Proof.
  intros H. unfold hA. rewrite concat_length. unfold offset_of. rewrite <- header_chunks_lens by assumption.
  now rewrite firstn_map.
Qed.
Lemma hdr_doff h : header_wf h -> hdr_bytes h = hA 11 h ++ le4 (h_doff h) ++ hC 11 h /\ length (hA 11 h) = 96%nat.
Proof.
  intros H. split.
  - apply hdr_split. unfold pre_k, header_chunks. destruct (h_vmin h =? 0); reflexivity.
  - rewrite hA_len by assumption. unfold pre_k. destruct (h_vmin h =? 0); reflexivity.
Qed.
Lemma hdr_npts h : header_wf h -> hdr_bytes h = hA 15 h ++ le4 (h_npts h) ++ hC 15 h /\ length (hA 15 h) = 107%nat.
Proof.
  intros H. split.
  - apply hdr_split. unfold pre_k, header_chunks. destruct (h_vmin h =? 0); reflexivity.
  - rewrite hA_len by assumption. unfold pre_k. destruct (h_vmin h =? 0); reflexivity.
Qed.
Lemma wf_set_doff h d : header_wf h -> header_wf (set_data_offset h d).
Proof.
  intros (H1&H2&H3&H4&H5&H6&H7&H8&H9&H10&H11&H12&H13&H14&H15&H16&H17&H18&H19&H20&H21&H22&H23).
  unfold header_wf, set_data_offset. cbn.
  assert (in_unsigned 32 (d mod 2 ^ 32)) by (unfold in_unsigned; apply Z.mod_pos_bound; lia). tauto.
Qed.
Lemma wf_set_npts h d : header_wf h -> header_wf (set_point_count h d).
Proof.
  intros (H1&H2&H3&H4&H5&H6&H7&H8&H9&H10&H11&H12&H13&H14&H15&H16&H17&H18&H19&H20&H21&H22&H23).
  unfold header_wf, set_point_count. cbn.
  assert (in_unsigned 32 (d mod 2 ^ 32)) by (unfold in_unsigned; apply Z.mod_pos_bound; lia). tauto.
Qed.
Lemma wf_set_pad h d : header_wf h -> header_wf (set_header_padding h d).
Proof.
  intros (H1&H2&H3&H4&H5&H6&H7&H8&H9&H10&H11&H12&H13&H14&H15&H16&H17&H18&H19&H20&H21&H22&H23).
  unfold header_wf, set_header_padding. cbn.
  assert (in_unsigned 32 (d mod 2 ^ 32)) by (unfold in_unsigned; apply Z.mod_pos_bound; lia). tauto.
Qed.
Lemma wf_set_vlrs h n l : header_wf h -> Forall vlr_wf l -> in_unsigned 32 n -> header_wf (h_upd_vlrs h n l).
Proof.
  intros (H1&H2&H3&H4&H5&H6&H7&H8&H9&H10&H11&H12&H13&H14&H15&H16&H17&H18&H19&H20&H21&H22&H23) Hl Hn.
  unfold header_wf. cbn. tauto.
Qed.
Lemma hAC_doff h d : hA 11 (set_data_offset h d) = hA 11 h /\ hC 11 (set_data_offset h d) = hC 11 h.
Proof.
  unfold hA, hC, pre_k, header_chunks. change (h_vmin (set_data_offset h d)) with (h_vmin h).
  destruct (h_vmin h =? 0); split; reflexivity.
Qed.
Lemma hAC_npts h d : hA 15 (set_point_count h d) = hA 15 h /\ hC 15 (set_point_count h d) = hC 15 h.
Proof.
  unfold hA, hC, pre_k, header_chunks. change (h_vmin (set_point_count h d)) with (h_vmin h).
  destruct (h_vmin h =? 0); split; reflexivity.
Qed.
Lemma overwrite_doff h d p T : header_wf h ->
  file_write (then_at (hdr_bytes h) p T) 96 (le4 (h_doff (set_data_offset h d))) = then_at (hdr_bytes (set_data_offset h d)) p T.
Proof.
  intros H. destruct (hdr_doff h H) as [E L]. destruct (hdr_doff (set_data_offset h d) (wf_set_doff h d H)) as [E' L'].
  destruct (hAC_doff h d) as [EA EC]. rewrite E, E', EA, EC. rewrite <- L at 1. rewrite then_at_overwrite; [reflexivity|].
  unfold le4. now rewrite !le_enc_length.
Qed.
Lemma overwrite_npts h d p T : header_wf h ->
  file_write (then_at (hdr_bytes h) p T) 107 (le4 (h_npts (set_point_count h d))) = then_at (hdr_bytes (set_point_count h d)) p T.
Proof.
  intros H. destruct (hdr_npts h H) as [E L]. destruct (hdr_npts (set_point_count h d) (wf_set_npts h d H)) as [E' L'].
  destruct (hAC_npts h d) as [EA EC]. rewrite E, E', EA, EC. rewrite <- L at 1. rewrite then_at_overwrite; [reflexivity|].
  unfold le4. now rewrite !le_enc_length.
Qed.

(** ** the VLR list of a new file *)
Lemma same_vlr_has_id name id v : same_vlr (str name) id v = has_id name id v.
Proof. unfold same_vlr, has_id, vlr_get_user. reflexivity. Qed.
Lemma delete_vlrs_upd h n l name id :
  delete_vlrs (h_upd_vlrs h n l) (str name) id =
  h_upd_vlrs h (Z.of_nat (length (filter (fun v => negb (has_id name id v)) l)) mod 2 ^ 32)
               (filter (fun v => negb (has_id name id v)) l).
Proof.
  unfold delete_vlrs. cbn [h_upd_vlrs h_vlrs].
  rewrite (filter_ext _ (fun v => negb (has_id name id v))); [reflexivity|].
  intros v. now rewrite same_vlr_has_id.
Qed.
Lemma fold_add_vlr srs h n l : exists n', fold_left add_vlr srs (h_upd_vlrs h n l) = h_upd_vlrs h n' (l ++ srs).
Proof.
  revert n l. induction srs as [|v srs IH]; intros n l; cbn [fold_left].
  - exists n. now rewrite app_nil_r.
  - unfold add_vlr at 2. cbn [h_upd_vlrs h_vlrs h_nvlr].
    change (h_upd_vlrs (h_upd_vlrs h n l) ?a ?b) with (h_upd_vlrs h a b).
    destruct (IH ((n + 1) mod 2 ^ 32) (l ++ [v])) as [n' E].
    exists n'. etransitivity; [exact E|]. now rewrite <- app_assoc.
Qed.
Lemma filter_filter {A} (f g : A -> bool) l : filter f (filter g l) = filter (fun x => g x && f x) l.
Proof.
  induction l as [|x l IH]; [reflexivity|]. cbn [filter].
  destruct (g x); cbn [filter andb]; [destruct (f x); now rewrite IH|exact IH].
Qed.
Lemma filter_all {A} (f : A -> bool) l : Forall (fun x => f x = true) l -> filter f l = l.
Proof. induction 1 as [|x l H Hl IH]; [reflexivity|]. cbn [filter]. now rewrite H, IH. Qed.
Lemma h_upd_self h : h = h_upd_vlrs h (h_nvlr h) (h_vlrs h).
Proof. destruct h; reflexivity. Qed.

Lemma crs_not v (name : string) (id : Z) : is_crs v = true ->
  (id <> 34735 /\ id <> 34736 /\ id <> 34737 /\ id <> 2112) -> has_id name id v = false.
Proof.
  unfold is_crs, has_id. intros H Hi.
  rewrite !orb_true_iff, !andb_true_iff, !Z.eqb_eq in H.
  assert (v_id v = 34735 \/ v_id v = 34736 \/ v_id v = 34737 \/ v_id v = 2112) as D by tauto.
  destruct (Z.eqb_spec (v_id v) id) as [E|E]; [|apply andb_false_r]. exfalso. lia.
Qed.

(** The header that results from the VLR clean-up. *)
Lemma prep_vlrs sv h : Forall (fun v => is_crs v = true) (h_srs h) ->
  (is_custom (h_schema h) = true -> has_id "liblas" 7 (sv (h_schema h)) = true) ->
  let h1 := set_georeference (delete_vlrs h (str "liblas") 2112) in
  let h2 := if is_custom (h_schema h1)
            then add_vlr (delete_vlrs h1 (str "liblas") 7) (sv (h_schema h1)) else h1 in
  delete_vlrs h2 (str "laszip encoded") 22204 =
  h_upd_vlrs h (Z.of_nat (length (written_vlrs sv h)) mod 2 ^ 32) (written_vlrs sv h).
Proof.
  intros Hsrs Hsv.
  cbn zeta.
  replace (delete_vlrs h (str "liblas") 2112) with (delete_vlrs (h_upd_vlrs h (h_nvlr h) (h_vlrs h)) (str "liblas") 2112)
    by (rewrite <- h_upd_self; reflexivity).
  rewrite delete_vlrs_upd. unfold set_georeference.
  rewrite !delete_vlrs_upd.
  change (h_srs (h_upd_vlrs h _ _)) with (h_srs h).
  match goal with |- context [fold_left add_vlr (h_srs h) (h_upd_vlrs h ?n ?l)] =>
      destruct (fold_add_vlr (h_srs h) h n l) as [n' E] end.
  rewrite E. change (h_schema (h_upd_vlrs h _ _)) with (h_schema h).
  set (L0 := filter (fun v => negb (has_id "LASF_Projection" 34737 v)) _) in *.
  assert (EL : filter (fun v => negb (has_id "laszip encoded" 22204 v))
     (filter (fun v => negb (is_custom (h_schema h) && has_id "liblas" 7 v)) (L0 ++ h_srs h)) ++
      (if is_custom (h_schema h) then [sv (h_schema h)] else []) = written_vlrs sv h).
  { unfold written_vlrs. rewrite !filter_app.
    rewrite (filter_all _ (h_srs h)).
    2:{ eapply Forall_impl; [|exact Hsrs]. intros v Hv. cbn beta. rewrite (crs_not v _ 7 Hv) by lia. now rewrite andb_false_r. }
    rewrite (filter_all _ (h_srs h)).
    2:{ eapply Forall_impl; [|exact Hsrs]. intros v Hv. cbn beta. rewrite (crs_not v _ 22204 Hv) by lia. reflexivity. }
    rewrite <- app_assoc. f_equal. unfold L0. rewrite !filter_filter. apply filter_ext. intros v. unfold is_crs.
    destruct (has_id "liblas" 2112 v), (has_id "LASF_Projection" 34735 v), (has_id "LASF_Projection" 34736 v),
      (has_id "LASF_Projection" 34737 v), (has_id "laszip encoded" 22204 v), (is_custom (h_schema h) && has_id "liblas" 7 v); reflexivity. }
  destruct (is_custom (h_schema h)) eqn:Ec.
  - rewrite delete_vlrs_upd.
    unfold add_vlr. change (h_upd_vlrs (h_upd_vlrs h ?a ?b) ?n ?l) with (h_upd_vlrs h n l).
    change (h_vlrs (h_upd_vlrs h _ ?l)) with l.
    rewrite delete_vlrs_upd. rewrite filter_app. cbn [filter].
    assert (X : has_id "laszip encoded" 22204 (sv (h_schema h)) = false).
    { specialize (Hsv eq_refl). unfold has_id in *. apply andb_true_iff in Hsv. destruct Hsv as [_ Hsv].
      apply Z.eqb_eq in Hsv. rewrite Hsv. apply andb_false_r. }
    rewrite X. cbn [negb]. cbn [andb] in EL. rewrite EL. reflexivity.
  - rewrite delete_vlrs_upd. cbn [andb negb] in EL.
    rewrite (filter_all (fun _ => true)) in EL by (apply Forall_forall; reflexivity).
    rewrite app_nil_r in EL. rewrite EL. reflexivity.
Qed.

(** The header of a freshly opened writer. *)
Definition fresh_header (sv : schema -> vlr) (h : header) (d : Z) : header :=
  set_data_offset (set_header_padding
    (h_upd_vlrs h (Z.of_nat (length (written_vlrs sv h))) (written_vlrs sv h)) 0) d.

Lemma vlrs_size_count l : Z.of_nat (length l) <= vlrs_size l.
Proof. induction l as [|v l IH]; cbn [vlrs_size fold_right length]; [lia|]. fold (vlrs_size l). lia. Qed.

Lemma prepare_ok sv h : fresh_ok sv h ->
  prepare_header sv h = Ok (fresh_header sv h (h_hsize h + vlrs_size (written_vlrs sv h))).
Proof.
  intros (Hwf & Hc & Hsrs & Hsv & Hl & Hh & Hb & Hd & Hp). unfold prepare_header.
  pose proof (prep_vlrs sv h Hsrs (fun e => proj2 (Hsv e))) as P. cbn zeta in P.
  set (L := written_vlrs sv h) in *.
  set (h1 := set_georeference (delete_vlrs h (str "liblas") 2112)) in *.
  set (h2 := if is_custom (h_schema h1) then add_vlr (delete_vlrs h1 (str "liblas") 7) (sv (h_schema h1)) else h1) in *.
  assert (Hc2 : h_comp h2 = false).
  { change (h_comp h2) with (h_comp (delete_vlrs h2 (str "laszip encoded") 22204)). rewrite P. exact Hc. }
  rewrite Hc2, P. clear P Hc2. clearbody h1 h2.
  pose proof (vlrs_size_count L) as HC. pose proof (vlrs_size_nonneg L) as HN.
  rewrite (Z.mod_small (Z.of_nat (length L))) by lia.
  assert (B : forall x, h_nvlr x = Z.of_nat (length L) -> h_vlrs x = L -> vlr_block_size x = Ok (vlrs_size L)).
  { intros x E1 E2. rewrite vlr_block_ok; rewrite ?E2; auto. lia. }
  destruct Hwf as (_&_&_&_&_&_&_&_&_&_&_&_&_&_&Hhs&Hdo&_).
  unfold in_unsigned in Hhs, Hdo.
  unfold new_padding. rewrite B by reflexivity. cbn [obind h_upd_vlrs h_doff h_hsize h_pad].
  rewrite (to_signed_id' 32 (h_doff h - (vlrs_size L + h_hsize h))) by (unfold in_signed; lia).
  rewrite (to_signed_id' 32 (vlrs_size L)) by (unfold in_signed; lia).
  assert (NP : (if h_doff h - (vlrs_size L + h_hsize h) <? 0
      then if h_doff h - (vlrs_size L + h_hsize h) =? - 2 ^ 31 then UB UBIntOverflow
           else let d := - (h_doff h - (vlrs_size L + h_hsize h)) in
                if d <? vlrs_size L then Ok 0 else Ok ((d - vlrs_size L) mod 2 ^ 32)
      else if h_pad h <=? h_doff h - (vlrs_size L + h_hsize h)
           then Ok (h_doff h - (vlrs_size L + h_hsize h))
           else Ok ((h_pad h + (h_doff h - (vlrs_size L + h_hsize h))) mod 2 ^ 32)) = Ok 0).
  { destruct (Z.ltb_spec (h_doff h - (vlrs_size L + h_hsize h)) 0) as [C|C].
    - destruct (Z.eqb_spec (h_doff h - (vlrs_size L + h_hsize h)) (- 2 ^ 31)); [lia|]. cbn zeta.
      destruct (Z.ltb_spec (- (h_doff h - (vlrs_size L + h_hsize h))) (vlrs_size L)); [reflexivity|].
      replace (- (h_doff h - (vlrs_size L + h_hsize h)) - vlrs_size L) with 0 by lia. reflexivity.
    - assert (E : h_doff h = h_hsize h + vlrs_size L) by lia. rewrite (Hp E).
      replace (h_doff h - (vlrs_size L + h_hsize h)) with 0 by lia. reflexivity. }
  cbn zeta in NP |- *. rewrite NP. cbn [obind].
  rewrite B by reflexivity. cbn [obind]. f_equal. unfold fresh_header. fold L.
  cbn [h_hsize set_header_padding h_pad h_upd_vlrs h_upd_pad].
  rewrite Z.mod_0_l, Z.add_0_r by lia. reflexivity.
Qed.

Lemma fresh_header_wf sv h d : fresh_ok sv h -> header_wf (fresh_header sv h d).
Proof.
  intros (Hwf & Hc & Hsrs & Hsv & Hl & Hh & Hb & Hd & Hp). unfold fresh_header.
  apply wf_set_doff, wf_set_pad, wf_set_vlrs; auto.
  - eapply Forall_impl; [|exact Hl]. intros v [Hv _]. exact Hv.
  - pose proof (vlrs_size_count (written_vlrs sv h)). unfold in_unsigned. lia.
Qed.

(** Offset of the point data of a new file. *)
Definition fresh_doff (sv : schema -> vlr) (h : header) : Z :=
  h_hsize h + vlrs_size (written_vlrs sv h) + Z.of_nat (length (pad_sig (h_vmin h))).

Definition fresh_tail (sv : schema -> vlr) (h : header) : list Z :=
  vlrs_image (written_vlrs sv h) ++ pad_sig (h_vmin h).
Lemma fresh_tail_len sv h : fresh_ok sv h ->
  (Z.to_nat (h_hsize h) + length (fresh_tail sv h))%nat = Z.to_nat (fresh_doff sv h).
Proof.
  intros (Hwf & Hc & Hsrs & Hsv & Hl & Hh & Hb & Hd & Hp). unfold fresh_tail, fresh_doff.
  rewrite app_length. pose proof (vlrs_image_len (written_vlrs sv h)) as E.
  assert (X : Forall vlr_wf (written_vlrs sv h)) by (eapply Forall_impl; [|exact Hl]; intros v [Hv _]; exact Hv).
  specialize (E X). lia.
Qed.

Lemma writer_new_fresh sv h : fresh_ok sv h ->
  writer_new sv (os_open []) h =
  Ok (mkWriter (os_at (then_at (hdr_bytes (fresh_header sv h (fresh_doff sv h))) (Z.to_nat (h_hsize h)) (fresh_tail sv h))
                      (Z.to_nat (fresh_doff sv h)))
               (fresh_header sv h (fresh_doff sv h)) 0).
Proof.
  intros HF. pose proof (prepare_ok sv h HF) as P. pose proof (fresh_tail_len sv h HF) as TL.
  set (d0 := h_hsize h + vlrs_size (written_vlrs sv h)) in *.
  pose proof (fresh_header_wf sv h d0 HF) as W0.
  pose proof HF as (Hwf & Hc & Hsrs & Hsv & Hl & Hh & Hb & Hd & Hp).
  set (L := written_vlrs sv h) in *.
  pose proof (vlrs_size_count L) as HC. pose proof (vlrs_size_nonneg L) as HN.
  assert (Hhs : in_unsigned 16 (h_hsize h)) by apply Hwf. unfold in_unsigned in Hhs.
  assert (HI : Forall vlr_wf L) by (eapply Forall_impl; [|exact Hl]; intros v [Hv _]; exact Hv).
  pose proof (vlrs_image_len L HI) as IL.
  set (h0 := fresh_header sv h d0) in *.
  assert (F0 : h_hsize h0 = h_hsize h /\ h_vlrs h0 = L /\ h_nvlr h0 = Z.of_nat (length L) /\
               h_doff h0 = d0 /\ h_pad h0 = 0 /\ h_vmin h0 = h_vmin h).
  { unfold h0, fresh_header. cbn. rewrite Z.mod_small by lia. repeat split. }
  destruct F0 as (F1 & F2 & F3 & F4 & F5 & F6).
  assert (BS : vlr_block_size h0 = Ok (vlrs_size L)) by (rewrite vlr_block_ok; rewrite ?F2; auto; lia).
  assert (RQ : required_header_size h0 = Ok d0).
  { unfold required_header_size. rewrite BS. cbn [obind]. rewrite F1, to_signed_id'; [f_equal; unfold d0; lia|lia|].
    unfold in_signed. lia. }
  assert (HLEN : (length (hdr_bytes h0) <= Z.to_nat (h_hsize h))%nat) by (rewrite hdr_bytes_len by assumption; lia).
  unfold writer_new, writer_write_header, write_header. cbn [w_os w_hdr w_count os_open os_data].
  cbn [length Nat.eqb negb]. rewrite P. cbn [obind].
  change (os_seek_end (os_seek (os_open []) 0) 0) with (os_at [] (length (@nil Z))).
  rewrite os_write_all_end. cbn [obind app length Nat.add].
  fold (hdr_bytes h0). unfold write_vlrs. rewrite F1, RQ. cbn [obind].
  rewrite os_seek_at by lia. rewrite F4, Z.sub_diag.
  change (to_signed 32 0 <? 0) with false. cbn iota. cbn [obind].
  rewrite F3, Nat2Z.id, F2.
  replace (os_at (hdr_bytes h0) (Z.to_nat (h_hsize h)))
    with (os_at (then_at (hdr_bytes h0) (Z.to_nat (h_hsize h)) []) (Z.to_nat (h_hsize h) + length (@nil Z)))
    by (cbn [then_at length]; now rewrite Nat.add_0_r).
  rewrite write_vlr_loop_then by assumption. cbn [obind app].
  rewrite F5. change (0 <? 0) with false. cbn iota. cbn [obind].
  unfold write_pad_signature. rewrite F6.
  assert (Hvm : in_unsigned 8 (h_vmin h)) by apply Hwf. unfold in_unsigned in Hvm.
  unfold fresh_tail, fresh_doff, pad_sig in *. fold L in TL |- *. fold d0.
  destruct (Z.eqb_spec (h_vmin h) 0) as [V|V].
  - rewrite V. change (0 <? 0) with false. cbn iota. rewrite RQ. cbn [obind].
    rewrite F4, Z.sub_diag. change (to_signed 32 0 <? 2) with true. cbn iota.
    rewrite os_seek_at by lia. rewrite os_write_at. cbn [obind].
    change (Z.to_nat 96) with 96%nat. rewrite overwrite_doff by assumption.
    assert (EH : set_data_offset h0 (d0 + 2) = fresh_header sv h (d0 + Z.of_nat (length [204; 221]))) by reflexivity.
    rewrite EH. set (hF := fresh_header sv h (d0 + Z.of_nat (length [204; 221]))) in *.
    assert (EDF : h_doff hF = d0 + 2).
    { unfold hF, fresh_header. cbn. apply Z.mod_small. lia. }
    rewrite EDF. replace ((d0 + 2 - 2) mod 2 ^ 32) with d0 by (rewrite Z.mod_small; lia).
    rewrite os_seek_at by lia.
    replace (Z.to_nat d0) with (Z.to_nat (h_hsize h) + length (vlrs_image L))%nat by lia.
    assert (WF : header_wf hF) by (apply fresh_header_wf; exact HF).
    assert (HL2 : (length (hdr_bytes hF) <= Z.to_nat (h_hsize h))%nat) by (rewrite hdr_bytes_len by assumption; lia).
    rewrite then_at_os_write by assumption. cbn [obind].
    rewrite then_at_os_write by assumption. cbn [obind Z.eqb negb].
    rewrite os_seek_at by lia. rewrite <- app_assoc. rewrite EDF. reflexivity.
  - destruct (Z.ltb_spec 0 (h_vmin h)); [|lia]. cbn [obind Z.eqb negb].
    rewrite F4, os_seek_at by lia. rewrite app_nil_r.
    change (Z.of_nat (length (@nil Z))) with 0. rewrite Z.add_0_r. reflexivity.
Qed.

(** ** writing points *)
Lemma write_points_ok h D p T c ps : (length D <= p)%nat ->
  Forall (point_fits (get_record_length h)) ps ->
  write_points (mkWriter (os_at (then_at D p T) (p + length T)) h c) ps =
  Ok (mkWriter (os_at (then_at D p (T ++ records (get_record_length h) ps))
                      (p + length (T ++ records (get_record_length h) ps))) h
               (match ps with [] => c | _ => (c + Z.of_nat (length ps)) mod 2 ^ 32 end)).
Proof.
  intros HD HP. revert T c. induction HP as [|q ps [Hq Hne] HP IH]; intros T c.
  - cbn [write_points records map List.concat]. now rewrite app_nil_r.
  - cbn [write_points]. unfold write_point. cbn [w_hdr w_os w_count].
    set (n := Z.to_nat (get_record_length h)).
    destruct (p_data q) as [|b bs] eqn:E; [congruence|]. rewrite <- E.
    destruct (Nat.ltb_spec (length (p_data q)) n) as [C|C].
    { unfold n in C. rewrite <- E in Hq. lia. }
    change (firstn n (p_data q)) with (record_of (get_record_length h) q).
    rewrite then_at_os_write by assumption. cbn [obind].
    rewrite IH. unfold records. cbn [map List.concat].
    rewrite <- !app_assoc. f_equal. f_equal. destruct ps as [|q2 ps]; [reflexivity|].
    rewrite Zplus_mod_idemp_l. f_equal. cbn [length]. lia.
Qed.

Lemma writer_close_ok h D' p T pos c : header_wf h -> 0 <= c < 2 ^ 32 ->
  D' = then_at (hdr_bytes h) p T ->
  writer_close (mkWriter (os_at D' pos) h c) = Ok (then_at (hdr_bytes (set_point_count h c)) p T).
Proof.
  intros H Hc ->. unfold writer_close, update_point_count. cbn [w_os w_count w_hdr].
  assert (E : (if c =? 0 then c else c) = c) by (destruct (c =? 0); reflexivity).
  rewrite E. unfold os_at at 1. cbn [os_fail]. rewrite os_seek_at by lia. rewrite os_write_at. cbn [obind w_os os_at os_data].
  change (Z.to_nat 107) with 107%nat. f_equal.
  rewrite <- overwrite_npts by assumption. unfold set_point_count. cbn [h_upd_npts h_npts].
  rewrite Z.mod_small by lia. reflexivity.
Qed.

Lemma write_file_ok sv h ps : fresh_ok sv h -> Forall (point_fits (get_record_length h)) ps ->
  Z.of_nat (length ps) < 2 ^ 32 ->
  write_file sv h ps =
  Ok (then_at (hdr_bytes (set_point_count (fresh_header sv h (fresh_doff sv h)) (Z.of_nat (length ps))))
        (Z.to_nat (h_hsize h)) (fresh_tail sv h ++ records (get_record_length h) ps)).
Proof.
  intros HF HP HN. unfold write_file, write_session. rewrite writer_new_fresh by assumption. cbn [obind].
  pose proof (fresh_header_wf sv h (fresh_doff sv h) HF) as WF.
  rewrite <- fresh_tail_len by assumption.
  assert (HL : (length (hdr_bytes (fresh_header sv h (fresh_doff sv h))) <= Z.to_nat (h_hsize h))%nat).
  { rewrite hdr_bytes_len by assumption. destruct HF as (_&_&_&_&_&Hh&_). lia. }
  rewrite write_points_ok by assumption. cbn [obind].
  assert (EC : match ps with [] => 0 | _ :: _ => (0 + Z.of_nat (length ps)) mod 2 ^ 32 end = Z.of_nat (length ps)).
  { destruct ps as [|q ps]; [reflexivity|]. rewrite Z.add_0_l. apply Z.mod_small. lia. }
  rewrite EC.
  eapply writer_close_ok; [exact WF|lia|reflexivity].
Qed.

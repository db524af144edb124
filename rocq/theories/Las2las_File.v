(** Rewriting the header block of a finished file. *)
From Coq Require Import ZArith List Bool Lia String.
From Coq Require Import ZifyBool ZifyNat.
Import ListNotations.
From Verif Require Import Outcome Bytes Float64 Float64_Proofs CStr Vlr_Model Schema_Model Schema_Spec Schema_Api Header_Model Point_Model Stream_Model Stream_Proofs
  IO_Spec Reader_Proofs Reader_Vlrs Reader_Model Reader_Spec Reader_Schema Reader_Api Reader_Open Reader_Hist Writer_Model Writer_Api Writer_Proofs Writer_File Writer_V10 Writer_RT
  Writer_Append IO_Round IO_Extra IO_Samples Prop_Reader Rewrite_Proofs Rewrite_Gap Rewrite_Read Prop_Rewrite Las2las_Copy
  Summary_Spec Summary_Proofs Las2las_Model Las2las_Spec Las2las_Summary.
Local Open Scope Z_scope.
Local Notation length := List.length (only parsing).

(** What is stored: in version 1.0 the source id is lost. *)
Definition stored (p : pubhdr) : pubhdr := if ph_vmin p =? 0 then with_source p (ph_reserved p) 0 else p.

Lemma rewrite_header_ok sv G h : (227 <= length G)%nat -> header_wf h -> write_session sv G h [] = Ok (hdr_bytes h ++ skipn 227 G).
Proof.
  intros HL HW. unfold write_session. rewrite writer_new_append by assumption. cbn [obind write_points].
  pose proof HW as (_&_&_&_&_&_&_&_&_&_&_&_&_&_&_&_&_&Hn&_). unfold in_unsigned in Hn.
  rewrite close_any by assumption. f_equal. f_equal. f_equal. unfold set_point_count. rewrite Z.mod_small by lia. destruct h; reflexivity.
Qed.

Lemma vlrs_tail n : forall G G' p, (forall o k, (227 <= o)%nat -> slice G' o k = slice G o k) -> (227 <= p)%nat ->
  vlrs_at n G' p = vlrs_at n G p /\ vlrs_end n G' p = vlrs_end n G p.
Proof.
  induction n as [|n IH]; intros G G' p S Hp; cbn [vlrs_at vlrs_end]; [split; reflexivity|].
  assert (E1 : vlr_len_at G' p = vlr_len_at G p) by (unfold vlr_len_at, u_at; rewrite S by lia; reflexivity).
  assert (E2 : vlr_end G' p = vlr_end G p) by (unfold vlr_end; now rewrite E1).
  assert (E3 : vlr_at G' p = vlr_at G p) by (unfold vlr_at, u_at; rewrite E1, !S by lia; reflexivity).
  rewrite E2, E3. destruct (IH G G' (vlr_end G p) S) as (-> & ->); [unfold vlr_end; lia|]. split; reflexivity.
Qed.

(** fields that decide how the rest of a file is understood *)
Definition same_layout (p p' : pubhdr) : Prop :=
  ph_sig p' = ph_sig p /\ ph_vmaj p' = ph_vmaj p /\ ph_vmin p' = ph_vmin p /\ ph_hsize p' = ph_hsize p /\ ph_doff p' = ph_doff p /\
  ph_nvlr p' = ph_nvlr p /\ ph_format p' = ph_format p /\ ph_reclen p' = ph_reclen p /\ ph_npts p' = ph_npts p /\
  ph_scale p' = ph_scale p /\ ph_offset p' = ph_offset p.

Lemma block_replaced G H p' : standard G -> 227 <= f_doff G -> length H = 227%nat -> bytes_ok H ->
  pub_of_file (H ++ skipn 227 G) = p' -> same_layout (pub_of_file G) p' -> let G' := H ++ skipn 227 G in
  file_vlrs G' = file_vlrs G /\ standard G' /\ gap G' = gap G /\ length G' = length G /\ (forall i, 0 <= i -> file_record G' i = file_record G i).
Proof.
  intros (HA & HP) HD LH BH EP SL. cbv zeta. set (G' := H ++ skipn 227 G) in *. subst p'.
  pose proof HA as (HF & HN & FS & HC). pose proof HF as (HB & HL & Hsig & Hmaj & Hmin & Hoff & Hfmt & HV).
  destruct SL as (L1 & L2 & L3 & L4 & L5 & L6 & L7 & L8 & L9 & L10 & L11). cbn [pub_of_file ph_sig ph_vmaj ph_vmin ph_hsize ph_doff ph_nvlr ph_format ph_reclen ph_npts ph_scale ph_offset] in *.
  assert (LG : length G' = length G) by (unfold G'; rewrite app_length, skipn_length; lia).
  assert (SA : forall o k, (227 <= o)%nat -> slice G' o k = slice G o k).
  { intros o k Ho. unfold slice. f_equal. replace o with ((o - 227) + 227)%nat by lia. rewrite <- !skipn_skipn. f_equal.
    unfold G'. rewrite skipn_app, skipn_all2 by lia. rewrite LH, Nat.sub_diag. reflexivity. }
  pose proof HP as (_ & _ & HLn & HZ & Hh & Hd).
  assert (EV : file_vlrs G' = file_vlrs G /\ file_vlrs_end G' = file_vlrs_end G).
  { unfold file_vlrs, file_vlrs_end. rewrite L4, L6. apply vlrs_tail; [exact SA|lia]. }
  destruct EV as (EV & EE).
  assert (LF : las_file G').
  { split; [unfold G'; apply bytes_app; [exact BH|now apply bytes_skipn]|]. rewrite LG. split; [exact HL|]. rewrite L1, L2, L3, L4, L5, L6, L7, EE.
    split; [exact Hsig|]. split; [exact Hmaj|]. split; [exact Hmin|]. split; [exact Hoff|]. split; [exact Hfmt|exact HV]. }
  assert (NS : no_schema_vlr G') by (unfold no_schema_vlr; rewrite EV; exact HN).
  assert (CC : complete G') by (unfold complete, f_reclen, f_npts, f_doff; rewrite L5, L8, L9, LG; exact HC).
  split; [exact EV|]. split; [|split; [|split; [exact LG|]]].
  - split.
    + split; [exact LF|]. split; [exact NS|]. split; [|exact CC]. unfold finite_scaling in *. injection L10 as Y1 Y2 Y3. injection L11 as Y4 Y5 Y6.
      apply Forall_forall. intros o Ho. rewrite Forall_forall in FS. specialize (FS o Ho). cbv beta in FS.
      assert (EO : u_at G' o 8 = u_at G o 8) by (cbn [In] in Ho; decompose [or] Ho; subst; (assumption || contradiction)).
      now rewrite EO.
    + split; [exact LF|]. split; [exact NS|]. unfold f_reclen, f_doff. rewrite EV, EE, L4, L5, L7, L8. split; [exact HLn|]. split; [exact HZ|]. split; [exact Hh|exact Hd].
  - unfold gap, f_doff. now rewrite EE, L5.
  - intros i Hi. unfold file_record, f_doff, f_reclen. rewrite L5, L8. apply SA. unfold f_doff in HD.
    pose proof (u_at_range G 105 2 HB) as R. assert (0 <= i * u_at G 105 2) by (apply Z.mul_nonneg_nonneg; lia). lia.
Qed.

Lemma pub_stored h : pub_of_header (stored_view h) = stored (pub_of_header h).
Proof. unfold stored, stored_view. cbn [pub_of_header ph_vmin ph_reserved]. destruct (h_vmin h =? 0); reflexivity. Qed.

(** the block of a header object over the file *)
Lemma header_over sv G h : standard G -> header_wf h -> h_comp h = false -> same_layout (pub_of_file G) (pub_of_header h) ->
  exists G', write_session sv G h [] = Ok G' /\ pub_of_file G' = stored (pub_of_header h) /\ slice G' 8 16 = guid_swap (h_guid h) /\
    file_vlrs G' = file_vlrs G /\ standard G' /\ gap G' = gap G /\ length G' = length G /\ (forall i, 0 <= i -> file_record G' i = file_record G i).
Proof.
  intros HS HW HC SL. pose proof HS as (HA & HP). pose proof HA as (HF & _). pose proof HF as (HB & HL & _ & _ & _ & Hoff & Hfmt & _).
  pose proof HP as (_ & _ & _ & _ & Hh & _).
  exists (hdr_bytes h ++ skipn 227 G). split; [now apply rewrite_header_ok|].
  assert (EF : get_format h = u_at G 104 1) by apply SL. pose proof (u_at_range G 104 1 HB) as R104.
  assert (P : pub_of_file (hdr_bytes h ++ skipn 227 G) = stored (pub_of_header h)) by (rewrite pub_of_hdr, pub_stored by (assumption || lia); reflexivity).
  split; [exact P|]. split; [now apply guid_of_hdr|].
  apply (block_replaced G (hdr_bytes h) (stored (pub_of_header h)) HS); [unfold f_doff; lia|now apply hdr_bytes_len|now apply hdr_bytes_bytes|exact P|].
  unfold stored. destruct (ph_vmin (pub_of_header h) =? 0); exact SL.
Qed.

Lemma same_layout_refl p : same_layout p p.
Proof. unfold same_layout. tauto. Qed.

Lemma opened_header t G : standard G -> exists r, reader_open (t_xml t) (t_doy t) (t_year t) G = Ok r /\ shows_file G (r_hdr r) /\ header_wf (r_hdr r).
Proof. intros (_ & HP). destruct (plain_header (t_xml t) (t_doy t) (t_year t) G HP) as (r & E & Hsh & HW & _). eauto. Qed.

(** no points: the file stays as it is, apart from the swapped project id *)
Lemma repair_empty t q G : standard G -> f_npts G = 0 ->
  exists G', repair_file t q G = Ok G' /\ pub_of_file G' = stored (pub_of_file G) /\ slice G' 8 16 = guid_swap (slice G 8 16) /\
    file_vlrs G' = file_vlrs G /\ standard G' /\ gap G' = gap G /\ length G' = length G.
Proof.
  intros HS H0. destruct (opened_header t G HS) as (r & E & Hsh & HW). pose proof Hsh as (P & Pg & PC & _).
  assert (EN : h_npts (r_hdr r) = 0) by (rewrite (shows_npts G _ Hsh); exact H0).
  unfold repair_file. rewrite E. cbn [obind]. unfold repair_header. rewrite EN. cbn [Z.eqb obind].
  destruct (header_over (t_sv t) G (r_hdr r) HS HW PC) as (G' & E1 & E2 & E3 & E4 & E5 & E6 & E7 & _); [rewrite P; apply same_layout_refl|].
  rewrite P in E2. rewrite Pg in E3. eauto 10.
Qed.

(** points: bounds and return counts are replaced *)
Lemma repair_points t h0 q ps G mn mx x0 y0 z0 x1 y1 z1 : standard G -> 0 < f_npts G -> cinv h0 q ps -> q_mm q = Some (mn, mx) ->
  tree_coords (t_text t) mn = Ok (x0, y0, z0) -> tree_coords (t_text t) mx = Ok (x1, y1, z1) ->
  exists G', repair_file t q G = Ok G' /\
    pub_of_file G' = stored (with_returns (with_bounds (pub_of_file G) (bits3 (x1, y1, z1)) (bits3 (x0, y0, z0))) (firstn 5 (return_counts ps))) /\
    slice G' 8 16 = guid_swap (slice G 8 16) /\
    file_vlrs G' = file_vlrs G /\ standard G' /\ gap G' = gap G /\ length G' = length G /\ (forall i, 0 <= i -> file_record G' i = file_record G i).
Proof.
  intros HS H0 I Em E0 E1. destruct (opened_header t G HS) as (r & E & Hsh & HW). pose proof Hsh as (P & Pg & PC & LB & _).
  assert (EN : h_npts (r_hdr r) = f_npts G) by exact (shows_npts G _ Hsh).
  set (h := r_hdr r) in *. 
  assert (UB' : Forall (in_unsigned 32) (h_byret h)) by (destruct HW as (_&_&_&_&_&_&_&_&_&_&_&_&_&_&_&_&_&_&_&UB'&_); exact UB').
  destruct (h_byret h) as [|a [|b [|c [|d [|e [|f [|g [|]]]]]]]] eqn:EB; try discriminate LB.
  apply Forall_inv_tail, Forall_inv_tail, Forall_inv_tail, Forall_inv_tail, Forall_inv_tail in UB'.
  pose proof (Forall_inv UB') as Uf. apply Forall_inv_tail, Forall_inv in UB'.
  destruct (repair_ok (t_text t) h0 q ps h a b c d e f g mn mx x0 y0 z0 x1 y1 z1 I ltac:(lia) EB Uf UB' Em E0 E1) as (l & ER & F5 & L7 & Ul).
  unfold repair_file. rewrite E. cbn [obind]. fold h. rewrite ER. cbn [obind].
  set (h' := with_byret (set_max (set_min h x0 y0 z0) x1 y1 z1) l) in *.
  assert (W' : header_wf h').
  { destruct HW as (H1&H2&H3&H4&H5&H6&H7&H8&H9&H10&H11&H12&H13&H14&H15&H16&H17&H18&H19&H20&H21&H22&H23).
    exact (conj H1 (conj H2 (conj H3 (conj H4 (conj H5 (conj H6 (conj H7 (conj H8 (conj H9 (conj H10 (conj H11 (conj H12 (conj H13 (conj H14 (conj H15 (conj H16 (conj H17 (conj H18 (conj L7 (conj Ul (conj H21 (conj H22 H23)))))))))))))))))))))). }
  assert (P' : pub_of_header h' = with_returns (with_bounds (pub_of_file G) (bits3 (x1, y1, z1)) (bits3 (x0, y0, z0))) (firstn 5 (return_counts ps))).
  { rewrite <- P, <- F5. reflexivity. }
  destruct (header_over (t_sv t) G h' HS W') as (G' & Q1 & Q2 & Q3 & Q4 & Q5 & Q6 & Q7 & Q8); [exact PC|rewrite P'; exact (same_layout_refl _)|].
  exists G'. split; [exact Q1|]. split; [rewrite Q2, P'; reflexivity|]. split; [rewrite Q3; change (h_guid h') with (h_guid h); now rewrite Pg|].
  split; [exact Q4|]. split; [exact Q5|]. split; [exact Q6|]. split; [exact Q7|exact Q8].
Qed.

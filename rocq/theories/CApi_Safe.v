(** Proofs about the C API model: calls with live handles are safe. *)
From Coq Require Import ZArith List Bool String Lia.
Import ListNotations.
From Verif Require Import Outcome Bytes CStr Float64 Float64_Proofs Endian_Model Classif_Model Vlr_Model Schema_Model Header_Model Point_Model Point_Spec Point_Api Point_Proofs Point_Hist Coord_Api Coord_Proofs Coord_Header Prop_Coord Stream_Model Reader_Model Reader_Api IO_Spec Reader_Spec Reader_Proofs Reader_Open Reader_Hist Hdr_Proofs Writer_File Writer_Append CApi_Model CApi_Spec CApi_Proofs.
From Verif Require Summary_Proofs Reader_Schema IO_Samples.
Local Open Scope Z_scope.
Local Notation length := List.length (only parsing).

(** ** tables *)
Lemma set_same {A} (l : list A) n x y : nth_error l n = Some y -> nth_error (list_set l n x) n = Some x.
Proof. revert n. induction l; intros [|n] E; cbn in *; try discriminate; auto. Qed.
Lemma set_other {A} (l : list A) n k x : n <> k -> nth_error (list_set l n x) k = nth_error l k.
Proof. revert n k. induction l; intros [|n] [|k] E; cbn; auto; try congruence. Qed.
Lemma set_get {A} (l : list A) n k x y : nth_error (list_set l n x) k = Some y -> k = n /\ y = x \/ k <> n /\ nth_error l k = Some y.
Proof.
  destruct (Nat.eq_dec n k) as [->|N]; [|rewrite set_other by exact N; intros E; right; split; congruence].
  destruct (nth_error l k) as [z|] eqn:E.
  - rewrite (set_same l k x z E). intros X. left. split; congruence.
  - intros X. exfalso. assert (L : (length l <= k)%nat) by now apply nth_error_None.
    assert (length (list_set l k x) = length l) as LL. { clear. revert k. induction l; intros [|k]; cbn; auto. }
    assert (nth_error (list_set l k x) k = None) by (apply nth_error_None; lia). congruence.
Qed.
Lemma app_get {A} (l : list A) x k y : nth_error (l ++ [x]) k = Some y -> k = length l /\ y = x \/ nth_error l k = Some y.
Proof.
  intros E. destruct (Nat.lt_ge_cases k (length l)) as [L|L].
  - rewrite nth_error_app1 in E by exact L. auto.
  - rewrite nth_error_app2 in E by exact L. left. destruct (k - length l)%nat as [|j] eqn:D; [|destruct j; discriminate]. cbn in E. split; [lia|congruence].
Qed.
Lemma app_keep {A} (l : list A) x k y : nth_error l k = Some y -> nth_error (l ++ [x]) k = Some y.
Proof. intros E. rewrite nth_error_app1; [exact E|]. apply nth_error_Some. congruence. Qed.

(** ** the invariant *)
Definition pt_ok (d : list Z) (h : header) : Prop := point_wf (mkPoint d h) /\ Z.of_nat (length d) = get_record_length h.
Definition sound (dh : header) (xml : vlr -> outcome schema) (s : cst) : Prop :=
  (forall n h, nth_error (c_hdrs s) n = Some (Some (Some h)) -> header_wf h) /\
  (forall n v, nth_error (c_vlrs s) n = Some (Some v) -> vlr_wf v) /\
  (forall n x, nth_error (c_pts s) n = Some (Some x) -> exists h, header_for dh s (cp_hdr x) h /\ pt_ok (cp_data x) h) /\
  (forall n r, nth_error (c_rdrs s) n = Some (Some r) -> exists F, readable xml F /\ rinv F r /\ header_wf (r_hdr r)).

Lemma header_for_of dh s r h : header_for dh s r h <-> header_of dh s r = Ok h.
Proof.
  destruct r; cbn [header_for header_of].
  - split; intros E; [now subst|]. now apply Ok_inj in E.
  - unfold header_at, object. destruct (nth_error (c_hdrs s) n) as [[[x|]|]|]; cbn [obind]; split; intros E; try discriminate; try congruence.
  - unfold object. destruct (nth_error (c_rdrs s) n) as [[x|]|]; cbn [obind]; split; intros E; try discriminate.
    + destruct E as (r & X & ->). congruence.
    + apply Ok_inj in E. subst. eauto.
    + destruct E as (r & X & _). discriminate.
    + destruct E as (r & X & _). discriminate.
Qed.

Section fixed.
Context (dh : header) (xml : vlr -> outcome schema) (Hdh : header_wf dh) (Ldh : layout_ok dh).

Lemma sound_start : sound dh xml c_start.
Proof. split; [|split; [|split]]; intros [|n] ? E; discriminate E. Qed.
Lemma sound_errs s l : sound dh xml s -> sound dh xml (set_errs s l).
Proof. intros H. exact H. Qed.
Lemma sound_vlrs s l : sound dh xml s -> (forall n v, nth_error l n = Some (Some v) -> vlr_wf v) -> sound dh xml (set_vlrs s l).
Proof. intros (A & B & C & D) H. split; [exact A|]. split; [exact H|]. split; [exact C|exact D]. Qed.
Lemma sound_vlr_put s n v : sound dh xml s -> vlr_wf v -> sound dh xml (set_vlrs s (put (c_vlrs s) n v)).
Proof. intros H W. apply sound_vlrs; [exact H|]. intros k x E. apply set_get in E as [(-> & E)|(_ & E)]; [congruence|]. destruct H as (_ & B & _). eauto. Qed.
Lemma sound_vlr_drop s n : sound dh xml s -> sound dh xml (set_vlrs s (drop (c_vlrs s) n)).
Proof. intros H. apply sound_vlrs; [exact H|]. intros k x E. apply set_get in E as [(-> & E)|(_ & E)]; [congruence|]. destruct H as (_ & B & _). eauto. Qed.
Lemma sound_vlr_new s v : sound dh xml s -> vlr_wf v -> sound dh xml (fst (new_vlr s v)).
Proof. intros H W. apply sound_vlrs; [exact H|]. intros k x E. apply app_get in E as [(_ & E)|E]; [congruence|]. destruct H as (_ & B & _). eauto. Qed.

Lemma sound_hdrs s l : sound dh xml s -> (forall n h, nth_error l n = Some (Some (Some h)) -> header_wf h) ->
  (forall k x n h, nth_error (c_pts s) k = Some (Some x) -> cp_hdr x = HObj n -> nth_error (c_hdrs s) n = Some (Some (Some h)) -> pt_ok (cp_data x) h ->
     exists h', nth_error l n = Some (Some (Some h')) /\ pt_ok (cp_data x) h') ->
  sound dh xml (set_hdrs s l).
Proof.
  intros (A & B & C & D) H K. split; [exact H|]. split; [exact B|]. split; [|exact D].
  intros k x E. destruct (C k x E) as (h & F & P). destruct (cp_hdr x) as [|m|m] eqn:R; cbn [header_for] in *.
  - eauto.
  - destruct (K k x m h E R F P) as (h' & X & Y). eauto.
  - eauto.
Qed.
Lemma sound_hdr_new s o : sound dh xml s -> (forall h, o = Some h -> header_wf h) -> sound dh xml (fst (new_hdr s o)).
Proof.
  intros H W. apply sound_hdrs; [exact H| |].
  - intros n h E. apply app_get in E as [(_ & E)|E]; [apply W; congruence|]. destruct H as (A & _). eauto.
  - intros k x n h _ _ E P. exists h. split; [now apply app_keep|exact P].
Qed.
Lemma sound_hdr_drop s n : sound dh xml s -> ~ in_use s (HObj n) -> sound dh xml (set_hdrs s (drop (c_hdrs s) n)).
Proof.
  intros H W. apply sound_hdrs; [exact H| |].
  - intros k h E. apply set_get in E as [(_ & E)|(_ & E)]; [congruence|]. destruct H as (A & _). eauto.
  - intros k x m h E R F P. exists h. split; [|exact P]. unfold drop. rewrite set_other; [exact F|]. intros <-. apply W. now exists k, x.
Qed.
Lemma sound_hdr_put s n h h' : sound dh xml s -> nth_error (c_hdrs s) n = Some (Some (Some h)) -> header_wf h' ->
  (in_use s (HObj n) -> get_format h' = get_format h /\ get_record_length h' = get_record_length h) -> sound dh xml (put_hdr s n h').
Proof.
  intros H E W K. apply sound_hdrs; [exact H| |].
  - intros k x X. apply set_get in X as [(_ & X)|(_ & X)]; [congruence|]. destruct H as (A & _). eauto.
  - intros k x m g P R F G. unfold put. destruct (Nat.eq_dec n m) as [<-|N].
    + exists h'. split; [eapply set_same; exact E|]. destruct K as (K1 & K2); [now exists k, x|]. rewrite E in F. assert (g = h) by congruence. subst g.
      destruct G as ((G1 & G2 & G3) & G4). unfold pt_ok, point_wf, p_format in *. cbn [p_hdr p_data] in *. rewrite K1, K2. auto.
    + exists g. split; [now rewrite set_other|exact G].
Qed.

Lemma sound_pts s l : sound dh xml s -> (forall n x, nth_error l n = Some (Some x) -> exists h, header_for dh s (cp_hdr x) h /\ pt_ok (cp_data x) h) -> sound dh xml (set_pts s l).
Proof. intros (A & B & C & D) H. split; [exact A|]. split; [exact B|]. split; [exact H|exact D]. Qed.
Lemma sound_pt_put s n x h : sound dh xml s -> header_for dh s (cp_hdr x) h -> pt_ok (cp_data x) h -> sound dh xml (set_pts s (put (c_pts s) n x)).
Proof. intros H F P. apply sound_pts; [exact H|]. intros k y E. apply set_get in E as [(_ & E)|(_ & E)]; [assert (y = x) by congruence; subst; eauto|]. destruct H as (_ & _ & C & _). eauto. Qed.
Lemma sound_pt_drop s n : sound dh xml s -> sound dh xml (set_pts s (drop (c_pts s) n)).
Proof. intros H. apply sound_pts; [exact H|]. intros k y E. apply set_get in E as [(_ & E)|(_ & E)]; [congruence|]. destruct H as (_ & _ & C & _). eauto. Qed.
Lemma sound_pt_new s x h : sound dh xml s -> header_for dh s (cp_hdr x) h -> pt_ok (cp_data x) h -> sound dh xml (fst (new_pt s x)).
Proof. intros H F P. apply sound_pts; [exact H|]. intros k y E. apply app_get in E as [(_ & E)|E]; [assert (y = x) by congruence; subst; eauto|]. destruct H as (_ & _ & C & _). eauto. Qed.

Lemma sound_rdrs s l : sound dh xml s -> (forall n r, nth_error l n = Some (Some r) -> exists F, readable xml F /\ rinv F r /\ header_wf (r_hdr r)) ->
  (forall k x n r, nth_error (c_pts s) k = Some (Some x) -> cp_hdr x = HRdr n -> nth_error (c_rdrs s) n = Some (Some r) ->
     exists r', nth_error l n = Some (Some r') /\ r_hdr r' = r_hdr r) ->
  sound dh xml (set_rdrs s l).
Proof.
  intros (A & B & C & D) H K. split; [exact A|]. split; [exact B|]. split; [|exact H].
  intros k x E. destruct (C k x E) as (h & F & P). exists h. split; [|exact P]. destruct (cp_hdr x) as [|m|m] eqn:R; cbn [header_for] in *; try exact F.
  destruct F as (r & F & ->). destruct (K k x m r E R F) as (r' & X & Y). exists r'. split; [exact X|congruence].
Qed.
Lemma sound_rdr_put s n r r' F : sound dh xml s -> nth_error (c_rdrs s) n = Some (Some r) -> readable xml F -> rinv F r' -> r_hdr r' = r_hdr r ->
  sound dh xml (set_rdrs s (put (c_rdrs s) n r')).
Proof.
  intros H E RF RI RH. pose proof H as (A & B & C & D). destruct (D n r E) as (_ & _ & _ & W). apply sound_rdrs; [exact H| |].
  - intros k x X. apply set_get in X as [(_ & X)|(_ & X)]; [|eauto]. assert (x = r') by congruence. subst. exists F. rewrite RH. auto.
  - intros k x m y P R G. unfold put. destruct (Nat.eq_dec n m) as [<-|N].
    + exists r'. split; [eapply set_same; exact E|congruence].
    + exists y. split; [now rewrite set_other|reflexivity].
Qed.
Lemma sound_rdr_new s r F : sound dh xml s -> readable xml F -> rinv F r -> header_wf (r_hdr r) -> sound dh xml (set_rdrs s (c_rdrs s ++ [Some r])).
Proof.
  intros H RF RI W. apply sound_rdrs; [exact H| |].
  - intros k x X. apply app_get in X as [(_ & X)|X]; [assert (x = r) by congruence; subst; eauto|]. destruct H as (_ & _ & _ & D). eauto.
  - intros k x m y _ _ G. exists y. split; [now apply app_keep|reflexivity].
Qed.
Lemma sound_rdr_drop s n : sound dh xml s -> ~ in_use s (HRdr n) -> sound dh xml (set_rdrs s (drop (c_rdrs s) n)).
Proof.
  intros H W. apply sound_rdrs; [exact H| |].
  - intros k x X. apply set_get in X as [(_ & X)|(_ & X)]; [congruence|]. destruct H as (_ & _ & _ & D). eauto.
  - intros k x m y P R G. exists y. split; [|reflexivity]. unfold drop. rewrite set_other; [exact G|]. intros <-. apply W. now exists k, x.
Qed.

(** ** points *)
Lemma reader_pt F r : readable xml F -> rinv F r -> pt_ok (r_data r) (r_hdr r).
Proof.
  intros (LF & _ & _ & _ & FB) (Hsh & _ & _ & _ & _ & _ & Hln & Hbd & _). pose proof LF as (HB & _ & _ & _ & _ & _ & Hf & _).
  assert (FM : get_format (r_hdr r) = u_at F 104 1) by (destruct Hsh as (_ & _ & _ & _ & _ & _ & E); exact E).
  pose proof (u_at_range F 104 1 HB) as R. split; [split; [|split]|]; unfold p_format; cbn [p_hdr p_data].
  - rewrite FM. lia.
  - exact Hbd.
  - rewrite FM, Hln. lia.
  - rewrite Hln, (shows_reclen F _ Hsh). apply Z2Nat.id. pose proof (fields_nonneg F HB). lia.
Qed.
Lemma header_for_wf s r h : sound dh xml s -> header_for dh s r h -> header_wf h.
Proof.
  intros (A & B & C & D) F. destruct r; cbn in F; [now subst|eauto|]. destruct F as (r & E & ->). destruct (D n r E) as (? & _ & _ & W). exact W.
Qed.
Lemma live_at s p q : sound dh xml s -> live_pt dh s p q ->
  (exists r, point_at dh s p = Ok (q, r) /\ header_for dh s r (p_hdr q)) /\ pt_ok (p_data q) (p_hdr q) /\ header_wf (p_hdr q).
Proof.
  intros H L. destruct p as [|n|n]; cbn [live_pt] in L; [contradiction| |].
  - destruct L as (x & E & D & F). pose proof H as (_ & _ & C & _). destruct (C n x E) as (h & F' & P).
    assert (h = p_hdr q). { apply header_for_of in F, F'. rewrite F in F'. now apply Ok_inj in F'. } subst h.
    split; [|split; [now rewrite <- D|eapply header_for_wf; eauto]].
    exists (cp_hdr x). split; [|exact F]. cbn [point_at]. unfold object. rewrite E. cbn [obind]. apply header_for_of in F. rewrite F. cbn [obind]. rewrite D. now destruct q.
  - destruct L as (r & E & ->). pose proof H as (_ & _ & _ & D). destruct (D n r E) as (F & RF & RI & W).
    split; [|split; [exact (reader_pt F r RF RI)|exact W]].
    exists (HRdr n). split; [cbn [point_at]; unfold object; rewrite E; reflexivity|]. cbn. eauto.
Qed.
Lemma put_data_sound s p q d : sound dh xml s -> live_pt dh s p q -> bytes_ok d -> length d = length (p_data q) -> sound dh xml (put_data s p d).
Proof.
  intros H L B Ln. destruct (live_at s p q H L) as (_ & ((P1 & P2 & P3) & P4) & _). destruct p as [|n|n]; cbn [live_pt put_data] in *; [contradiction| |].
  - destruct L as (x & E & D & F). rewrite E. eapply sound_pt_put; [exact H|exact F|]. cbn [cp_data]. unfold pt_ok, point_wf, p_format in *. cbn [p_data p_hdr] in *. rewrite Ln. auto.
  - destruct L as (r & E & ->). rewrite E. pose proof H as (_ & _ & _ & D). destruct (D n r E) as (F & RF & RI & W).
    eapply sound_rdr_put; [exact H|exact E|exact RF| |reflexivity].
    destruct RI as (I1 & I2 & I3 & I4 & I5 & I6 & I7 & I8 & I9). unfold rinv, rd_data. cbn [r_hdr r_is r_size r_recsize r_data r_current].
    cbn [r_point p_data] in Ln. rewrite Ln. repeat (split; [assumption|]). assumption.
Qed.
End fixed.

(** ** one call *)
Lemma attr_of_range fmt a : exists s w sg, attr_range fmt (pattr a) = Some (s, w, sg) /\ is_color (pattr a) = false /\ pattr a <> ATime.
Proof. destruct a as [[]| | | | | | | | | |]; cbn; do 3 eexists; (split; [reflexivity|]); split; try reflexivity; discriminate. Qed.
Lemma pnum_get_api a q : pnum_get a q = api_get (pattr a) q.
Proof. now destruct a as [[]| | | | | | | | | |]. Qed.
Lemma pnum_set_api a q v : pnum_set a q v = api_set (pattr a) v q.
Proof. now destruct a as [[]| | | | | | | | | |]. Qed.
Lemma pnum_get_ok a q : point_wf q -> exists v, pnum_get a q = Ok v.
Proof. intros W. rewrite pnum_get_api. destruct (attr_of_range (p_format q) a) as (s & w & sg & R & _). rewrite (api_get_spec q _ s w sg W R). eauto. Qed.
Definition kept_size (q q' : point) : Prop := p_hdr q' = p_hdr q /\ bytes_ok (p_data q') /\ length (p_data q') = length (p_data q).
Lemma pnum_set_ok a q v : point_wf q -> exists q', pnum_set a q v = Ok q' /\ kept_size q q'.
Proof.
  intros W. rewrite pnum_set_api. destruct (attr_of_range (p_format q) a) as (s & w & sg & R & C & T).
  destruct (api_set_spec q _ v s w sg W C R) as (q' & E & X & Y & Z1 & _); [congruence|]. exists q'. split; [exact E|]. split; [exact X|]. split; assumption.
Qed.
Lemma preal_get_ok a q : point_wf q -> exists v, preal_get a q = Ok v.
Proof.
  intros W. destruct (pnum_get_ok (PRaw a) q W) as (v & E). destruct a; cbn [pnum_get preal_get] in *; unfold get_x, get_y, get_z; rewrite E; cbn [obind]; eauto.
Qed.
Lemma set_time_ok q t : point_wf q -> (exists e, set_time q t = Throw e /\ is_runtime e = true) \/ exists q', set_time q t = Ok q' /\ kept_size q q'.
Proof.
  intros W. destruct (attr_range (p_format q) ATime) as [[[s w] sg]|] eqn:R.
  - right. pose proof W as (Hf & _).
    assert (Hws : w = 64 /\ sg = false).
    { destruct (format_cases _ Hf) as [E|[E|[E|E]]]; rewrite E in R; cbn in R; try discriminate; injection R as <- <- <-; auto. }
    destruct Hws as [-> ->].
    destruct (set_get_frame q ATime (f64_bits t) s 64 false W eq_refl R) as (q' & E & (_ & B & _) & Hh & Hl & _).
    { cbn [value_fits]. apply f64_bits_range. }
    cbn [api_set] in E. rewrite f64_of_bits_bits in E. exists q'. split; [exact E|]. split; [exact Hh|]. split; assumption.
  - left. destruct (time_absent q W R) as (H & _). eexists. split; [apply H|reflexivity].
Qed.
Lemma set_color_ok q c : point_wf q -> in_unsigned 16 (c_red c) -> in_unsigned 16 (c_green c) -> in_unsigned 16 (c_blue c) ->
  (exists e, set_color q c = Throw e /\ is_runtime e = true) \/ exists q', set_color q c = Ok q' /\ kept_size q q'.
Proof.
  intros W A B C. destruct (attr_range (p_format q) ARed) as [x|] eqn:R.
  - right. destruct (set_color_frame q (c_red c) (c_green c) (c_blue c) W ltac:(congruence) A B C) as (q' & E & (_ & D & _) & Hh & Hl & _).
    exists q'. split; [now destruct c|]. split; [exact Hh|]. split; assumption.
  - left. destruct (color_absent q W R) as (H & _). eexists. split; [apply H|reflexivity].
Qed.
Lemma get_time_ok q : point_wf q -> exists t, get_time q = Ok t.
Proof.
  intros W. destruct (attr_range (p_format q) ATime) as [[[s w] sg]|] eqn:R.
  - pose proof (api_get_spec q ATime s w sg W R) as G. cbn [api_get] in G. unfold omap in G. destruct (get_time q); try discriminate. eauto.
  - destruct (time_absent q W R) as (_ & H). eauto.
Qed.
Lemma u_mod n v : 0 <= n -> in_unsigned n (v mod 2 ^ n).
Proof. intros H. unfold in_unsigned. apply Z.mod_pos_bound. apply Z.pow_pos_nonneg; lia. Qed.
Ltac wf_open H := destruct H as (H1&H2&H3&H4&H5&H6&H7&H8&H9&H10&H11&H12&H13&H14&H15&H16&H17&H18&H19&H20&H21&H22&H23).
Lemma header_new_wf doy year : exists h, header_new doy year = Ok h /\ header_wf h /\ layout_ok h.
Proof.
  destruct (Schema_Proofs.sinv_new 3 ltac:(lia)) as (sc & E & Hi & Hf). unfold header_new. rewrite E. cbn [obind]. eexists. split; [reflexivity|]. split.
  - unfold header_wf. cbn [h_sig h_srcid h_reserved h_guid h_vmaj h_vmin h_sysid h_swid h_doy h_year h_hsize h_doff h_nvlr h_npts h_byret h_vlrs h_srs h_pad].
    split; [reflexivity|]. split; [apply IO_Samples.bytes_okb_ok; reflexivity|]. split; [unfold in_unsigned, eHeaderSize; clear; lia|]. split; [unfold in_unsigned, eHeaderSize; clear; lia|]. split; [reflexivity|].
    split; [apply IO_Samples.bytes_okb_ok; reflexivity|]. split; [unfold in_unsigned, eHeaderSize; clear; lia|]. split; [unfold in_unsigned, eHeaderSize; clear; lia|]. split; [apply strncpy_length|].
    split; [apply bytes_strncpy, IO_Samples.bytes_okb_ok; reflexivity|]. split; [apply strncpy_length|]. split; [apply bytes_strncpy, IO_Samples.bytes_okb_ok; reflexivity|].
    split; [exact (u_mod 16 _ ltac:(clear; lia))|]. split; [exact (u_mod 16 _ ltac:(clear; lia))|]. split; [unfold in_unsigned, eHeaderSize; clear; lia|]. split; [unfold in_unsigned, eHeaderSize; clear; lia|]. split; [unfold in_unsigned, eHeaderSize; clear; lia|]. split; [unfold in_unsigned, eHeaderSize; clear; lia|]. split; [reflexivity|].
    split; [apply Forall_forall; intros x Hx; apply repeat_spec in Hx; subst; unfold in_unsigned, eHeaderSize; clear; lia|]. split; [constructor|]. split; [constructor|unfold in_unsigned, eHeaderSize; clear; lia].
  - assert (X : schema_new 3 = Ok sc) by exact E. clear Hi Hf. vm_compute in X. apply Ok_inj in X. subst sc. 
    split; [vm_compute; split; discriminate|]. split; [vm_compute; discriminate|]. split; split; intros; vm_compute; try reflexivity; discriminate.
Qed.
Lemma hnum_set_keeps a h v h' o : header_wf h -> fits_hnum a v -> hnum_set a h v = (h', o) ->
  header_wf h' /\ (a <> HDataFormatId -> get_format h' = get_format h /\ get_record_length h' = get_record_length h) /\
  ((exists e, o = Throw e) \/ o = Ok tt) /\ ((exists e, o = Throw e) <-> refused c_start (HdrSetN a Null v)).
Proof.
  intros W F E. assert (NF : forall P : Prop, ~ P -> ((exists e, Ok tt = Throw e) <-> P)) by (intros P NP; split; [intros (e & X); discriminate|contradiction]).
  destruct a; cbn [hnum_set] in E; try (injection E as <- <-; split; [|split; [intros _; split; reflexivity|split; [now right|apply NF; intros []]]];
    wf_open W; unfold header_wf, set_source_id, set_reserved, set_creation_doy, set_creation_year, set_data_offset, set_header_padding, set_point_count;
    cbn [h_upd_srcid h_upd_reserved h_upd_doy h_upd_year h_upd_doff h_upd_pad h_upd_npts h_sig h_srcid h_reserved h_guid h_vmaj h_vmin h_sysid h_swid h_doy h_year h_hsize h_doff h_nvlr h_npts h_byret h_vlrs h_srs h_pad];
    pose proof (u_mod 16 v ltac:(lia)); pose proof (u_mod 32 v ltac:(lia)); tauto).
  - unfold set_version_major in E. cbn [refused]. destruct (Z.ltb_spec v eVersionMajorMin) as [L|L]; cbn [orb] in E.
    { injection E as <- <-. split; [exact W|]. split; [tauto|]. split; [left; eauto|]. split; [|eauto]. intros _. unfold eVersionMajorMin in L. lia. }
    destruct (Z.ltb_spec eVersionMajorMax v) as [M|M]; unfold eVersionMajorMin, eVersionMajorMax in *.
    { injection E as <- <-. split; [exact W|]. split; [tauto|]. split; [left; eauto|]. split; [|eauto]. intros _. lia. }
    injection E as <- <-. split; [|split; [intros _; split; reflexivity|split; [now right|apply NF; lia]]].
    wf_open W. unfold header_wf. cbn [h_upd_vmaj h_sig h_srcid h_reserved h_guid h_vmaj h_vmin h_sysid h_swid h_doy h_year h_hsize h_doff h_nvlr h_npts h_byret h_vlrs h_srs h_pad]. cbn [fits_hnum] in F. tauto.
  - unfold set_version_minor in E. cbn [refused]. destruct (Z.ltb_spec eVersionMinorMax v) as [L|L]; unfold eVersionMinorMax in L.
    { injection E as <- <-. split; [exact W|]. split; [tauto|]. split; [left; eauto|]. split; [|eauto]. intros _. lia. }
    injection E as <- <-. split; [|split; [intros _; split; reflexivity|split; [now right|apply NF; lia]]].
    wf_open W. unfold header_wf. cbn [h_upd_vmin h_sig h_srcid h_reserved h_guid h_vmaj h_vmin h_sysid h_swid h_doy h_year h_hsize h_doff h_nvlr h_npts h_byret h_vlrs h_srs h_pad]. cbn [fits_hnum] in F. tauto.
  - unfold set_header_format in E. destruct (set_format (h_schema h) v) as (sc, o') eqn:S. injection E as <- <-. split; [|split; [congruence|]].
    { wf_open W. unfold header_wf. cbn [h_upd_schema h_sig h_srcid h_reserved h_guid h_vmaj h_vmin h_sysid h_swid h_doy h_year h_hsize h_doff h_nvlr h_npts h_byret h_vlrs h_srs h_pad]. tauto. }
    cbn [fits_hnum] in F. unfold in_unsigned in F. cbn [refused]. destruct (Z.leb_spec v 3).
    + destruct (Summary_Proofs.format_change h v ltac:(lia)) as (h' & X). unfold set_header_format in X. rewrite S in X. injection X as _ ->.
      split; [now right|apply NF; lia].
    + destruct (Reader_Schema.set_format_bad (h_schema h) v ltac:(lia) ltac:(lia) ltac:(lia) ltac:(lia)) as (s' & X). rewrite S in X. injection X as _ ->.
      split; [left; eauto|]. split; [lia|eauto].
Qed.
Lemma vnum_set_wf a v x : vlr_wf v -> vlr_wf (vnum_set a v x).
Proof.
  intros (A & B & C & D & E & F & G & H). pose proof (u_mod 16 x ltac:(lia)) as M.
  destruct a; unfold vlr_wf; cbn [vnum_set vlr_set_size vlr_set_id vlr_set_reserved v_user v_desc v_data v_reserved v_id v_size]; tauto.
Qed.
Lemma vtext_set_ok a v t : vlr_wf v -> bytes_ok t ->
  (exists v', vtext_set a v t = Ok v' /\ vlr_wf v') \/ exists e, vtext_set a v t = Throw e.
Proof.
  intros W B. destruct a; cbn [vtext_set].
  - pose proof (vlr_set_user_spec v t W B) as H. destruct (_ <=? _)%nat; [destruct H as (v' & E & X & _)|]; eauto.
  - pose proof (vlr_set_desc_spec v t W B) as H. destruct (_ <=? _)%nat; [destruct H as (v' & E & X & _)|]; eauto.
Qed.
Lemma htext_set_ok a h t : header_wf h -> bytes_ok t ->
  (exists h', htext_set a h t = Ok h' /\ header_wf h' /\ get_format h' = get_format h /\ get_record_length h' = get_record_length h) \/ exists e, htext_set a h t = Throw e.
Proof.
  intros W B. wf_open W. destruct a; cbn [htext_set]; unfold set_system_id, set_software_id; destruct (_ <? _)%nat; eauto; left; eexists; (split; [reflexivity|]);
    (split; [|split; reflexivity]); unfold header_wf; cbn [h_upd_sysid h_upd_swid h_sig h_srcid h_reserved h_guid h_vmaj h_vmin h_sysid h_swid h_doy h_year h_hsize h_doff h_nvlr h_npts h_byret h_vlrs h_srs h_pad].
  - pose proof (bytes_strncpy eSystemIdSize t B). pose proof (strncpy_length eSystemIdSize t). tauto.
  - pose proof (bytes_strncpy eSoftwareIdSize t B). pose proof (strncpy_length eSoftwareIdSize t). tauto.
Qed.
Lemma list_set_length {A} (l : list A) n x : length (list_set l n x) = length l.
Proof. revert n. induction l; intros [|n]; cbn; auto. Qed.
Lemma list_set_forall {A} (P : A -> Prop) l n x : Forall P l -> P x -> Forall P (list_set l n x).
Proof. intros H. revert n. induction H; intros [|n] Hx; cbn; constructor; auto. Qed.
Lemma set_returns_ok h i v : header_wf h ->
  (exists h', set_by_return h i v = Ok h' /\ header_wf h' /\ get_format h' = get_format h /\ get_record_length h' = get_record_length h) \/ exists e, set_by_return h i v = Throw e.
Proof.
  intros W. unfold set_by_return. destruct (_ && _); eauto. left. eexists. split; [reflexivity|]. split; [|split; reflexivity]. wf_open W.
  unfold header_wf; cbn [h_upd_byret h_sig h_srcid h_reserved h_guid h_vmaj h_vmin h_sysid h_swid h_doy h_year h_hsize h_doff h_nvlr h_npts h_byret h_vlrs h_srs h_pad].
  pose proof (list_set_length (h_byret h) (Z.to_nat i) (v mod 2 ^ 32)). pose proof (list_set_forall (in_unsigned 32) (h_byret h) (Z.to_nat i) (v mod 2 ^ 32) H20 (u_mod 32 v ltac:(lia))).
  rewrite list_set_length. tauto.
Qed.
Lemma delete_vlr_ok h i : header_wf h ->
  (exists h', delete_vlr h i = Ok h' /\ header_wf h' /\ get_format h' = get_format h /\ get_record_length h' = get_record_length h) \/ exists e, delete_vlr h i = Throw e.
Proof.
  intros W. unfold delete_vlr. destruct (_ <=? _); eauto. left. eexists. split; [reflexivity|]. split; [|split; reflexivity].
  apply wf_set_vlrs; [exact W| |apply u_mod; lia]. destruct W as (_&_&_&_&_&_&_&_&_&_&_&_&_&_&_&_&_&_&_&_&H21&_).
  rewrite <- (firstn_skipn (Z.to_nat i) (h_vlrs h)) in H21. apply Forall_app in H21 as (F1 & F2). apply Forall_app. split; [exact F1|].
  replace (S (Z.to_nat i)) with (1 + Z.to_nat i)%nat by reflexivity. destruct (skipn (Z.to_nat i) (h_vlrs h)) as [|v l] eqn:E.
  - rewrite <- skipn_skipn, E. constructor.
  - rewrite <- skipn_skipn, E. cbn. now inversion F2.
Qed.
Lemma add_vlr_ok h v : header_wf h -> vlr_wf v -> header_wf (add_vlr h v) /\ get_format (add_vlr h v) = get_format h /\ get_record_length (add_vlr h v) = get_record_length h.
Proof.
  intros W V. split; [|split; reflexivity]. apply wf_set_vlrs; [exact W| |apply u_mod; lia]. destruct W as (_&_&_&_&_&_&_&_&_&_&_&_&_&_&_&_&_&_&_&_&H21&_).
  apply Forall_app. split; [exact H21|]. constructor; [exact V|constructor].
Qed.
Lemma hreal_set_ok a h x y z : header_wf h -> header_wf (hreal_set a h x y z) /\ get_format (hreal_set a h x y z) = get_format h /\ get_record_length (hreal_set a h x y z) = get_record_length h.
Proof. intros W. split; [|destruct a; split; reflexivity]. destruct a; exact W. Qed.
Lemma obj_vlr s v x : live_vlr s v x -> exists n, v = At n /\ object (c_vlrs s) n = Ok x.
Proof. intros (n & -> & E). exists n. split; [reflexivity|]. unfold object. now rewrite E. Qed.
Lemma obj_hdr s v x : live_hdr s v x -> exists n, v = At n /\ nth_error (c_hdrs s) n = Some (Some (Some x)) /\ object (c_hdrs s) n = Ok (Some x).
Proof. intros (n & -> & E). exists n. split; [reflexivity|]. split; [exact E|]. unfold object. now rewrite E. Qed.

Section step.
Context (dh : header) (xml : vlr -> outcome schema) (doy year : Z) (Hdh : header_wf dh) (Ldh : layout_ok dh).
Definition safe (o : outcome (cst * res)) : Prop := exists t r, o = Ok (t, r) /\ sound dh xml t.
Lemma safe_ok t r : sound dh xml t -> safe (Ok (t, r)).
Proof. intros H. exists t, r. auto. Qed.
Lemma safe_fail s m rc : sound dh xml s -> safe (fail s m rc).
Proof. intros H. unfold fail. apply safe_ok. exact (sound_errs dh xml s _ H). Qed.
Lemma safe_tried s m o : sound dh xml s -> (forall t, o = Ok t -> sound dh xml t) -> (forall u, o <> UB u) -> safe (tried s m o).
Proof. intros H K U. destruct o; cbn [tried]; [apply safe_ok; auto|now apply safe_fail|now elim (U u)]. Qed.
Lemma use_vlr {m} s rc v k : sound dh xml s -> (v = Null \/ exists x, live_vlr s v x) ->
  (forall n x, nth_error (c_vlrs s) n = Some (Some x) -> vlr_wf x -> v = At n -> safe (k n x)) -> safe (valid s m rc (c_vlrs s) v k).
Proof.
  intros H [->|(x & n & -> & E)] K; [now apply safe_fail|]. cbn [valid]. unfold object. rewrite E. cbn [obind]. apply K; auto. destruct H as (_ & B & _). eauto.
Qed.
Lemma use_hdr {m} s rc h x k : sound dh xml s -> live_hdr s h x ->
  (forall n, nth_error (c_hdrs s) n = Some (Some (Some x)) -> header_wf x -> h = At n -> safe (k n x)) -> safe (hdr_valid s m rc h k).
Proof.
  intros H (n & -> & E) K. cbn [hdr_valid]. unfold object. rewrite E. cbn [obind]. apply K; auto. destruct H as (A & _). eauto.
Qed.
Lemma use_pt {m} s rc p k : sound dh xml s -> (p = PNull \/ exists q, live_pt dh s p q) ->
  (forall q, live_pt dh s p q -> pt_ok (p_data q) (p_hdr q) -> point_wf q -> safe (k q)) -> safe (pt_valid dh s m rc p k).
Proof.
  intros H [->|(q & L)] K; [now apply safe_fail|]. destruct (live_at dh xml Hdh s p q H L) as ((r & E & _) & P & _).
  assert (safe (let! (q, _) := point_at dh s p in k q)). { rewrite E. cbn [obind]. apply K; auto. destruct P as (P & _). now destruct q. }
  destruct p; [now apply safe_fail| |]; exact H0.
Qed.
Lemma use_rdr {m} s rc r k : sound dh xml s -> (r = Null \/ exists n x, r = At n /\ nth_error (c_rdrs s) n = Some (Some x)) ->
  (forall n x F, nth_error (c_rdrs s) n = Some (Some x) -> readable xml F -> rinv F x -> header_wf (r_hdr x) -> r = At n -> safe (k n x)) -> safe (valid s m rc (c_rdrs s) r k).
Proof.
  intros H [->|(n & x & -> & E)] K; [now apply safe_fail|]. cbn [valid]. unfold object. rewrite E. cbn [obind]. destruct H as (_ & _ & _ & D). destruct (D n x E) as (F & A & B & C). eauto.
Qed.
Lemma next_hdr r : r_hdr (fst (fst (reader_next no_filter no_transform r tt))) = r_hdr r.
Proof.
  unfold reader_next, impl_next. set (r0 := if r_current r =? 0 then rd_stream r (is_seek (is_clear (r_is r)) (h_doff (r_hdr r))) else r). assert (E0 : r_hdr r0 = r_hdr r) by (unfold r0; destruct (r_current r =? 0); reflexivity).
  destruct (r_size r0 <=? r_current r0); [exact E0|]. unfold read_counted. destruct (read_record _ _ _) as [[d s]|e|u]; [|exact E0|exact E0].
  unfold filtered_part, no_filter, no_transform. exact E0.
Qed.
Lemma at_hdr r i : r_hdr (fst (reader_at no_transform r i)) = r_hdr r.
Proof.
  unfold reader_at. destruct (_ <=? _); [reflexivity|]. unfold impl_at. destruct (_ =? _); [reflexivity|]. destruct (_ <? _); [reflexivity|].
  destruct (read_record _ _ _) as [[d s]|e|u]; [reflexivity| |reflexivity]. destruct e; reflexivity.
Qed.
Lemma seek_hdr r i : r_hdr (fst (reader_seek r i)) = r_hdr r.
Proof. unfold reader_seek. destruct (_ =? _); [reflexivity|]. destruct (_ <? _); reflexivity. Qed.
Lemma next_safe F r : readable xml F -> rinv F r -> exists r1 a, reader_next no_filter no_transform r tt = ((r1, tt), a) /\ rinv F r1 /\ r_hdr r1 = r_hdr r /\ forall u, a <> UB u.
Proof.
  intros (A & B & C & D & _) I. destruct (rop_inv_x xml F r RNext A B C D Logic.I I) as (r1 & a & E & I1). cbn [rop_run] in E. pose proof (next_hdr r) as H.
  destruct (reader_next no_filter no_transform r tt) as [[r2 []] b]. cbn [fst] in *. exists r2, b. split; [reflexivity|].
  assert (r2 = r1) by now apply (f_equal fst) in E. subst r2. split; [exact I1|]. split; [exact H|]. apply (f_equal snd) in E. cbn [snd] in E. intros u ->. discriminate E.
Qed.
Lemma at_safe F r i : readable xml F -> rinv F r -> in_unsigned 32 i -> exists r1 a, reader_at no_transform r i = (r1, a) /\ rinv F r1 /\ r_hdr r1 = r_hdr r /\ forall u, a <> UB u.
Proof.
  intros (A & B & C & D & _) I U. destruct (rop_inv_x xml F r (RAt i) A B C D (proj1 U) I) as (r1 & a & E & I1). cbn [rop_run] in E. pose proof (at_hdr r i) as H.
  destruct (reader_at no_transform r i) as [r2 b]. cbn [fst] in *. exists r2, b. split; [reflexivity|].
  assert (r2 = r1) by now apply (f_equal fst) in E. subst r2. split; [exact I1|]. split; [exact H|]. apply (f_equal snd) in E. cbn [snd] in E. intros u ->. discriminate E.
Qed.
Lemma seek_safe F r i : readable xml F -> rinv F r -> in_unsigned 32 i -> exists r1 a, reader_seek r i = (r1, a) /\ rinv F r1 /\ r_hdr r1 = r_hdr r /\ forall u, a <> UB u.
Proof.
  intros (A & B & C & D & _) I U. destruct (rop_inv_x xml F r (RSeek i) A B C D (proj1 U) I) as (r1 & a & E & I1). cbn [rop_run] in E. pose proof (seek_hdr r i) as H.
  destruct (reader_seek r i) as [r2 b]. cbn [fst] in *. exists r2, b. split; [reflexivity|].
  assert (r2 = r1) by now apply (f_equal fst) in E. subst r2. split; [exact I1|]. split; [exact H|]. apply (f_equal snd) in E. cbn [snd] in E. intros u ->. discriminate E.
Qed.

Ltac live := first [left; reflexivity | eauto].
Lemma step_safe s c : sound dh xml s -> careful dh xml s c -> safe (cstep dh xml doy year s c).
Proof.
  intros H K. destruct c; cbn [careful] in K; unfold cstep; cbv zeta.
  - apply safe_ok. now apply sound_errs.
  - apply safe_ok. now apply sound_errs.
  - apply safe_ok. now apply sound_errs.
  - now apply safe_ok.
  - now apply safe_ok.
  - now apply safe_ok.
  - apply safe_ok. apply sound_vlr_new; [exact H|exact vlr_new_wf].
  - apply use_vlr; [exact H|exact K|]. intros. apply safe_ok. now apply sound_vlr_drop.
  - apply use_vlr; [exact H|exact K|]. intros. now apply safe_ok.
  - apply use_vlr; [exact H|exact K|]. intros. apply safe_ok. apply sound_vlr_put; [exact H|now apply vnum_set_wf].
  - apply use_vlr; [exact H|exact K|]. intros. now apply safe_ok.
  - destruct K as [->|(L & l & -> & B)]; [now apply safe_fail|]. apply use_vlr; [exact H|auto|]. intros n x E W _. cbn [c_string obind].
    destruct (vtext_set_ok a x (until_nul l) W (bytes_until_nul l B)) as [(v' & -> & W')|(e & ->)]; cbn [obind].
    + apply safe_tried; [exact H| |discriminate]. intros t X. apply Ok_inj in X. subst t. now apply sound_vlr_put.
    + now apply safe_fail.
  - destruct K as [->|(x & L & S1 & S2)]; [now apply safe_fail|]. apply use_vlr; [exact H|eauto|]. intros n y E W ->. destruct L as (m & M & L). assert (y = x) by congruence. subst y.
    assert (0 <= v_size x) by (destruct W as (_&_&_&_&_&_&_&Wz); unfold in_unsigned in Wz; lia).
    replace (length (v_data x) <? Z.to_nat (v_size x))%nat with false by (symmetry; apply Nat.ltb_ge; lia).
    replace (room <? Z.to_nat (v_size x))%nat with false by (symmetry; apply Nat.ltb_ge; lia). now apply safe_ok.
  - destruct K as [->|(L & B & S1)]; [now apply safe_fail|]. apply use_vlr; [exact H|eauto|]. intros n y E W ->.
    replace (length d <? Z.to_nat len)%nat with false by (symmetry; apply Nat.ltb_ge; lia). apply safe_ok. apply sound_vlr_put; [exact H|].
    destruct W as (W1&W2&W3&W4&W5&W6). unfold vlr_wf. cbn [vlr_set_data v_user v_desc v_data v_reserved v_id v_size].
    split; [exact W1|]. split; [exact W2|]. split; [exact W3|]. split; [exact W4|]. split; [now apply bytes_firstn|exact W6].
  - destruct (header_new_wf doy year) as (h & -> & W & _). cbn [obind]. apply safe_ok. apply sound_hdr_new; [exact H|]. intros h' X. congruence.
  - destruct K as [->|(n & -> & (x & E) & U)]; [now apply safe_fail|]. cbn [valid]. unfold object. rewrite E. cbn [obind]. apply safe_ok. now apply sound_hdr_drop.
  - destruct K as (x & n & -> & E). unfold header_at, object. rewrite E. cbn [obind]. apply safe_ok. apply sound_hdr_new; [exact H|]. intros h' X. destruct H as (A & _). apply (A n). congruence.
  - destruct K as ((x & L) & y & M). apply (use_hdr s _ h x); [exact H|exact L|]. intros. apply (use_hdr s _ k y); [exact H|exact M|]. intros.
    unfold header_eq. destruct (ptr_eqb h k); [now apply safe_ok|]. destruct (negb _); [now apply safe_ok|]. destruct (negb _); now apply safe_ok.
  - destruct K as (x & L). apply (use_hdr s _ h x); [exact H|exact L|]. intros. now apply safe_ok.
  - destruct K as (FT & n & y & -> & L & U).
    assert (G : forall m, nth_error (c_hdrs s) m = Some (Some (Some y)) -> header_wf y -> n = m -> safe
      match hnum_set a y x with (x', Ok _) => Ok (put_hdr s m x', Num LE_None) | (x', Throw _) => fail (put_hdr s m x') (name_of (HdrSetN a (At n) x)) (Num LE_Failure) | (_, UB u) => UB u end).
    { intros m E W <-. destruct (hnum_set a y x) as (y', o) eqn:X. destruct (hnum_set_keeps a y x y' o W FT X) as (W' & K1 & K2 & _).
      assert (SS : sound dh xml (put_hdr s n y')).
      { eapply sound_hdr_put; [exact H|exact E|exact W'|]. intros IU. assert (DA : a = HDataFormatId \/ a <> HDataFormatId) by (destruct a; auto; right; discriminate).
        destruct DA as [DA|DA]; [now elim (U DA)|exact (K1 DA)]. }
      destruct K2 as [(e & ->)| ->]; [now apply safe_fail|now apply safe_ok]. }
    destruct a; try (apply (use_hdr s _ _ y); [exact H|exact L|]; intros m E W M; injection M as <-; now apply G).
    destruct L as (m & M & E). injection M as <-. cbn [valid]. unfold object. rewrite E. cbn [obind]. apply G; [exact E| |reflexivity]. destruct H as (A & _). eauto.
  - destruct K as (x & L). apply (use_hdr s _ h x); [exact H|exact L|]. intros. now apply safe_ok.
  - destruct K as (x & L). apply (use_hdr s _ h x); [exact H|exact L|]. intros. now apply safe_ok.
  - destruct K as (x & L). apply (use_hdr s _ h x); [exact H|exact L|]. intros. now apply safe_ok.
  - destruct K as ((x & L) & l & -> & B). apply (use_hdr s _ h x); [exact H|exact L|]. intros n E W _. cbn [c_string obind].
    destruct (htext_set_ok a x (until_nul l) W (bytes_until_nul l B)) as [(v' & -> & W' & F)|(e & ->)]; cbn [obind].
    + apply safe_tried; [exact H| |discriminate]. intros t X. apply Ok_inj in X. subst t. eapply sound_hdr_put; eauto.
    + now apply safe_fail.
  - destruct K as (y & L). apply (use_hdr s _ h y); [exact H|exact L|]. intros. now apply safe_ok.
  - destruct K as (y' & L). apply (use_hdr s _ h y'); [exact H|exact L|]. intros n E W _. apply safe_ok. destruct (hreal_set_ok a y' x y z W) as (W' & F). eapply sound_hdr_put; eauto.
  - destruct K as (_ & x & L). apply (use_hdr s _ h x); [exact H|exact L|]. intros n E W _. destruct ((i <? 5) && (0 <=? i)) eqn:B; [|now apply safe_ok].
    assert (LB : length (h_byret x) = 7%nat) by (destruct W as (_&_&_&_&_&_&_&_&_&_&_&_&_&_&_&_&_&_&LB&_); exact LB).
    apply andb_true_iff in B as (B1 & B2). apply Z.ltb_lt in B1. apply Z.leb_le in B2. unfold deref. rewrite LB.
    replace ((0 <=? i) && (i <? Z.of_nat 7)) with true by (symmetry; apply andb_true_iff; split; [now apply Z.leb_le|apply Z.ltb_lt; lia]).
    destruct (nth_error (h_byret x) (Z.to_nat i)) eqn:N; [now apply safe_ok|]. apply nth_error_None in N. lia.
  - destruct K as (_ & y & L). apply (use_hdr s _ h y); [exact H|exact L|]. intros n E W _.
    destruct (set_returns_ok y (i mod 2 ^ 64) x W) as [(v' & -> & W' & F)|(e & ->)]; cbn [obind].
    + apply safe_tried; [exact H| |discriminate]. intros t X. apply Ok_inj in X. subst t. eapply sound_hdr_put; eauto.
    + now apply safe_fail.
  - destruct K as (x & L & B). apply (use_hdr s _ h x); [exact H|exact L|]. intros n E W _. unfold get_vlr.
    destruct (nth_error (h_vlrs x) (Z.to_nat i)) as [v|] eqn:N; [|apply nth_error_None in N; lia]. cbn [obind]. apply safe_ok. apply sound_vlr_new; [exact H|].
    destruct W as (_&_&_&_&_&_&_&_&_&_&_&_&_&_&_&_&_&_&_&_&H21&_). rewrite Forall_forall in H21. apply H21. eapply nth_error_In. exact N.
  - destruct K as (_ & x & L). apply (use_hdr s _ h x); [exact H|exact L|]. intros n E W _.
    destruct (delete_vlr_ok x i W) as [(v' & -> & W' & F)|(e & ->)]; cbn [obind].
    + apply safe_tried; [exact H| |discriminate]. intros t X. apply Ok_inj in X. subst t. eapply sound_hdr_put; eauto.
    + now apply safe_fail.
  - destruct K as ((x & L) & V). apply (use_hdr s _ h x); [exact H|exact L|]. intros n E W _. apply use_vlr; [exact H|exact V|]. intros m y E' W' _.
    apply safe_ok. destruct (add_vlr_ok x y W W') as (W'' & F). eapply sound_hdr_put; eauto.
  - apply safe_ok. destruct (fresh_wf dh Ldh) as (W & _). apply (sound_pt_new dh xml s _ dh); [exact H|reflexivity|]. split; [exact W|].
    unfold point_new. cbn [p_data cp_data]. rewrite repeat_length. apply Z2Nat.id. unfold get_record_length. apply Z.mod_pos_bound. lia.
  - destruct K as (q & L). destruct (live_at dh xml Hdh s p q H L) as ((r & E & F) & P & _). rewrite E. cbn [obind]. apply safe_ok. eapply sound_pt_new; eauto.
  - destruct K as [->|(n & q & -> & E)]; [now apply safe_fail|]. unfold object. rewrite E. cbn [obind]. apply safe_ok. now apply sound_pt_drop.
  - destruct p, q; try (now apply safe_fail); now apply safe_ok.
  - assert (N : forall o m r, (forall h, o = Some h -> header_wf h) -> safe (let (s', r') := new_hdr s o in match r with true => Ok (s', r') | false => fail s' m r' end)).
    { intros o m [] W; cbn [new_hdr]; [apply safe_ok|apply safe_fail]; now apply (sound_hdr_new dh xml s o). }
    destruct K as [->|(q & L)]; [apply (N None _ false); intros; discriminate|]. destruct (live_at dh xml Hdh s p q H L) as ((r & E & _) & _ & W).
    destruct p; [now apply (N None _ false); intros; discriminate| |]; rewrite E; cbn [obind]; apply (N (Some (p_hdr q)) EmptyString true); intros h' X; congruence.
  - destruct K as [->|(q & x & L & (m & -> & E) & LO & TG & CF)]; [now apply safe_fail|]. cbn [valid]. unfold object at 1. rewrite E. cbn [obind].
    destruct (live_at dh xml Hdh s _ q H L) as ((r & EP & _) & (P1 & P2) & _). rewrite EP. cbn [obind].
    assert (WQ : point_wf q) by now destruct q. destruct (C07_attributes q x WQ LO TG CF) as (q' & -> & HQ & W' & LQ & _). cbn [obind]. apply safe_ok.
    eapply sound_pt_put; [exact H|exact E|]. cbn [cp_data]. split; [rewrite <- HQ; now destruct q'|exact LQ].
  - apply use_pt; [exact H|exact K|]. intros q L P W. destruct (pnum_get_ok a q W) as (v & ->). now apply safe_ok.
  - apply use_pt; [exact H|exact K|]. intros q L P W. destruct (pnum_set_ok a q x W) as (q' & -> & HQ & BQ & LQ). cbn [obind tried]. apply safe_ok. eapply put_data_sound; eauto.
  - apply use_pt; [exact H|exact K|]. intros q L P W. destruct (preal_get_ok a q W) as (v & ->). now apply safe_ok.
  - destruct K as [->|(q & L & SC & OF & ST)]; [now apply safe_fail|]. apply use_pt; [exact H|eauto|]. intros q0 L0 P W.
    assert (q0 = q). { destruct (live_at dh xml Hdh s _ q H L) as ((? & E1 & _) & _). destruct (live_at dh xml Hdh s _ q0 H L0) as ((? & E2 & _) & _). rewrite E1 in E2. apply Ok_inj in E2. congruence. } subst q0.
    destruct (C06_quantisation q _ x W SC OF ST) as (q' & y & E & (_ & BQ & _) & _ & LQ & _).
    assert (X : preal_set a q x = Ok q') by (destruct a; exact E). rewrite X. cbn [obind tried]. apply safe_ok. eapply put_data_sound; eauto.
  - apply use_pt; [exact H|exact K|]. intros q L P W. destruct (get_time_ok q W) as (v & ->). now apply safe_ok.
  - apply use_pt; [exact H|exact K|]. intros q L P W. destruct (set_time_ok q t W) as [(e & -> & ->)|(q' & -> & HQ & BQ & LQ)]; [now apply safe_ok|]. cbn [obind tried]. apply safe_ok. eapply put_data_sound; eauto.
  - apply use_pt; [exact H|exact K|]. intros q L P W. destruct (get_color_wf q W) as (v & ->). now apply safe_ok.
  - destruct K as [->|(L & C1 & C2 & C3)]; [now apply safe_fail|]. apply use_pt; [exact H|auto|]. intros q L' P W.
    destruct (set_color_ok q c W C1 C2 C3) as [(e & -> & ->)|(q' & -> & HQ & BQ & LQ)]; [now apply safe_ok|]. cbn [obind tried]. apply safe_ok. eapply put_data_sound; eauto.
  - destruct K as [->|(q & L & R)]; [now apply safe_fail|]. apply use_pt; [exact H|eauto|]. intros q0 L0 P W.
    assert (q0 = q). { destruct (live_at dh xml Hdh s _ q H L) as ((? & E1 & _) & _). destruct (live_at dh xml Hdh s _ q0 H L0) as ((? & E2 & _) & _). rewrite E1 in E2. apply Ok_inj in E2. congruence. } subst q0.
    destruct P as (_ & LP). replace (length (p_data q) <? Z.to_nat (get_record_length (p_hdr q)))%nat with false by (symmetry; apply Nat.ltb_ge; lia).
    replace (room <? Z.to_nat (get_record_length (p_hdr q)))%nat with false by (symmetry; apply Nat.ltb_ge; lia). now apply safe_ok.
  - destruct K as [->|(q & L & B & R)]; [now apply safe_fail|]. apply use_pt; [exact H|eauto|]. intros q0 L0 P W.
    assert (q0 = q). { destruct (live_at dh xml Hdh s _ q H L) as ((? & E1 & _) & _). destruct (live_at dh xml Hdh s _ q0 H L0) as ((? & E2 & _) & _). rewrite E1 in E2. apply Ok_inj in E2. congruence. } subst q0.
    destruct P as (_ & LP). replace (length (p_data q) =? Z.to_nat (get_record_length (p_hdr q)))%nat with true by (symmetry; apply Nat.eqb_eq; lia).
    replace (length (p_data q) <? Z.to_nat (get_record_length (p_hdr q)))%nat with false by (symmetry; apply Nat.ltb_ge; lia).
    replace (length d <? Z.to_nat (get_record_length (p_hdr q)))%nat with false by (symmetry; apply Nat.ltb_ge; lia). cbn [orb]. apply safe_ok.
    eapply put_data_sound; [exact Hdh|exact H|exact L| |].
    + apply bytes_app; [now apply bytes_firstn|apply bytes_skipn]. apply W.
    + rewrite app_length, firstn_length, skipn_length. lia.
  - apply use_pt; [exact H|exact K|]. intros q L P W. unfold who.
    destruct (pnum_get_ok PReturnNumber q W) as (? & E1), (pnum_get_ok PNumberOfReturns q W) as (? & E2), (pnum_get_ok PScanDirection q W) as (? & E3), (pnum_get_ok PFlightLineEdge q W) as (? & E4), (pnum_get_ok PScanAngleRank q W) as (? & E5).
    cbn [pnum_get] in *. rewrite E1, E2, E3, E4, E5. cbn [obind]. now apply safe_ok.
  - apply use_pt; [exact H|exact K|]. intros q L P W. unfold is_valid.
    destruct (pnum_get_ok PReturnNumber q W) as (? & E1), (pnum_get_ok PNumberOfReturns q W) as (? & E2), (pnum_get_ok PScanDirection q W) as (? & E3), (pnum_get_ok PFlightLineEdge q W) as (? & E4), (pnum_get_ok PScanAngleRank q W) as (? & E5).
    cbn [pnum_get] in *. rewrite E5. cbn [obind]. destruct (_ || _); [now apply safe_ok|]. rewrite E4. cbn [obind]. destruct (_ <? _); [now apply safe_ok|]. rewrite E3. cbn [obind].
    destruct (_ <? _); [now apply safe_ok|]. rewrite E2. cbn [obind]. destruct (_ <? _); [now apply safe_ok|]. rewrite E1. cbn [obind]. destruct (_ <? _); now apply safe_ok.
  - pose proof K as (LF & RS & _). destruct (open_ok_x xml doy year file LF RS) as (r & -> & RI & _ & _ & _ & _ & W). apply safe_ok. eapply sound_rdr_new; eauto.
  - destruct K as [->|(n & x & -> & E & U)]; [now apply safe_fail|]. cbn [valid]. unfold object. rewrite E. cbn [obind]. apply safe_ok. now apply sound_rdr_drop.
  - destruct K as [->|(n & x & -> & E)]; [cbn [new_hdr]; apply safe_fail; apply (sound_hdr_new dh xml s None); [exact H|intros; discriminate]|].
    unfold object. rewrite E. cbn [obind]. apply safe_ok. apply sound_hdr_new; [exact H|]. intros h X. destruct H as (_ & _ & _ & D). destruct (D n x E) as (? & _ & _ & W). congruence.
  - apply use_rdr; [exact H|exact K|]. intros n x F E RF RI W _. destruct (next_safe F x RF RI) as (r1 & a & -> & I1 & HH & NU).
    assert (S1 : sound dh xml (set_rdrs s (put (c_rdrs s) n r1))) by (eapply sound_rdr_put; eauto). cbn [fst].
    destruct a as [[]|e|u]; [now apply safe_ok|now apply safe_ok|now apply safe_fail|now elim (NU u)].
  - destruct K as (U & K). apply use_rdr; [exact H|exact K|]. intros n x F E RF RI W _. destruct (at_safe F x i RF RI U) as (r1 & a & -> & I1 & HH & NU).
    assert (S1 : sound dh xml (set_rdrs s (put (c_rdrs s) n r1))) by (eapply sound_rdr_put; eauto).
    destruct a as [[]|e|u]; [now apply safe_ok|now apply safe_ok|now apply safe_fail|now elim (NU u)].
  - destruct K as (U & K). apply use_rdr; [exact H|exact K|]. intros n x F E RF RI W _. destruct (seek_safe F x i RF RI U) as (r1 & a & -> & I1 & HH & NU).
    assert (S1 : sound dh xml (set_rdrs s (put (c_rdrs s) n r1))) by (eapply sound_rdr_put; eauto).
    destruct a as [[]|e|u]; [now apply safe_ok|now apply safe_ok|now apply safe_fail|now elim (NU u)].
Qed.
Lemma run_safe l : forall s, sound dh xml s -> careful_run dh xml doy year s l -> exists t rs, crun dh xml doy year s l = Ok (t, rs) /\ length rs = length l /\ sound dh xml t.
Proof.
  induction l as [|c l IH]; intros s H K; cbn [crun careful_run] in *; [exists s, []; auto|]. destruct K as (K1 & K2).
  destruct (step_safe s c H K1) as (t & r & E & T). rewrite E. cbn [obind]. destruct (IH t T (K2 t r E)) as (t' & rs & E' & L & T'). rewrite E'. cbn [obind].
  exists t', (r :: rs). cbn [List.length]. auto.
Qed.
End step.

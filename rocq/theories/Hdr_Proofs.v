From Coq Require Import ZArith List Bool Lia String.
From Coq Require Import ZifyBool ZifyNat.
Import ListNotations.
From Verif Require Import Outcome Bytes CStr Float64 Vlr_Model Schema_Model Header_Model Hdr_Spec.
Local Open Scope Z_scope.

Lemma until_nul_c_string s : c_string_of s (until_nul s).
Proof.
  split; [apply until_nul_no_nul|].
  induction s as [|b s IH]; cbn [until_nul]; [auto|].
  destruct (Z.eqb_spec b 0) as [->|Hb]; [right; exists s; reflexivity|].
  destruct IH as [E|(r & E)]; [left; congruence|right; exists r; cbn; congruence].
Qed.

Lemma c_string_unique s t : c_string_of s t -> t = until_nul s.
Proof.
  intros (Hn & [->|(r & ->)]).
  - symmetry. now apply until_nul_id.
  - symmetry. now apply until_nul_app_nul.
Qed.
Lemma c_string_iff s t : c_string_of s t <-> t = until_nul s.
Proof. split; [apply c_string_unique|intros ->; apply until_nul_c_string]. Qed.

(** *** VariableRecord (C10) *)
Lemma vlr_get_user_plain v : vlr_get_user false v = until_nul (v_user v).
Proof. reflexivity. Qed.

Lemma vlr_set_user_spec v s : vlr_wf v -> bytes_ok s ->
  if (List.length s <=? 16)%nat
  then exists v', vlr_set_user v s = Ok v' /\ vlr_wf v' /\ c_string_of s (vlr_get_user false v') /\
         vlr_get_user true v' = pad_to 16 (vlr_get_user false v') /\ List.length (vlr_get_user true v') = 16%nat /\
         v_desc v' = v_desc v /\ v_data v' = v_data v /\ v_reserved v' = v_reserved v /\ v_id v' = v_id v /\ v_size v' = v_size v
  else vlr_set_user v s = Throw EInvalidArgument.
Proof.
  intros Hw Hs. pose proof Hw as (H1 & H2 & H3 & H4 & H5 & H6 & H7 & H8).
  unfold vlr_set_user. rewrite H1. unfold eUserIdSize in *.
  destruct (Nat.leb_spec (List.length s) 16) as [Hl|Hl].
  - replace (16 <? List.length s)%nat with false by lia.
    eexists. split; [reflexivity|]. split; [|split; [|split; [|split]]].
    + unfold vlr_wf. cbn. rewrite pad_to_length by lia. split; [reflexivity|]. repeat (split; auto); try (now apply bytes_pad).
    + rewrite vlr_get_user_plain. cbn [v_user]. rewrite until_nul_pad. apply until_nul_c_string.
    + unfold vlr_get_user. cbn [v_user andb]. rewrite pad_to_length by lia. rewrite until_nul_pad.
      pose proof (until_nul_length s). destruct (Nat.ltb_spec (List.length (until_nul s)) 16); [reflexivity|].
      unfold pad_to. replace (16 - List.length (until_nul s))%nat with 0%nat by lia. cbn. now rewrite app_nil_r.
    + unfold vlr_get_user. cbn [v_user andb]. rewrite pad_to_length by lia. rewrite until_nul_pad.
      pose proof (until_nul_length s). destruct (Nat.ltb_spec (List.length (until_nul s)) 16); [apply pad_to_length; lia|lia].
    + cbn. auto.
  - replace (16 <? List.length s)%nat with true by lia. reflexivity.
Qed.

Lemma vlr_set_desc_spec v s : vlr_wf v -> bytes_ok s ->
  if (List.length s <=? 32)%nat
  then exists v', vlr_set_desc v s = Ok v' /\ vlr_wf v' /\ c_string_of s (vlr_get_desc false v') /\
         vlr_get_desc true v' = pad_to 32 (vlr_get_desc false v') /\ List.length (vlr_get_desc true v') = 32%nat /\
         v_user v' = v_user v /\ v_data v' = v_data v /\ v_reserved v' = v_reserved v /\ v_id v' = v_id v /\ v_size v' = v_size v
  else vlr_set_desc v s = Throw EInvalidArgument.
Proof.
  intros Hw Hs. pose proof Hw as (H1 & H2 & H3 & H4 & H5 & H6 & H7 & H8).
  unfold vlr_set_desc. rewrite H2. unfold eDescriptionSize in *.
  destruct (Nat.leb_spec (List.length s) 32) as [Hl|Hl].
  - replace (32 <? List.length s)%nat with false by lia.
    eexists. split; [reflexivity|]. split; [|split; [|split; [|split]]].
    + unfold vlr_wf. cbn. rewrite pad_to_length by lia. split; [exact H1|]. repeat (split; auto); try (now apply bytes_pad).
    + unfold vlr_get_desc. cbn [v_desc andb]. rewrite until_nul_pad. apply until_nul_c_string.
    + unfold vlr_get_desc. cbn [v_desc andb]. rewrite pad_to_length by lia. rewrite until_nul_pad.
      pose proof (until_nul_length s). destruct (Nat.ltb_spec (List.length (until_nul s)) 32); [reflexivity|].
      unfold pad_to. replace (32 - List.length (until_nul s))%nat with 0%nat by lia. cbn. now rewrite app_nil_r.
    + unfold vlr_get_desc. cbn [v_desc andb]. rewrite pad_to_length by lia. rewrite until_nul_pad.
      pose proof (until_nul_length s). destruct (Nat.ltb_spec (List.length (until_nul s)) 32); [apply pad_to_length; lia|lia].
    + cbn. auto.
  - replace (32 <? List.length s)%nat with true by lia. reflexivity.
Qed.

Lemma vlr_total_size_spec v : vlr_total_size v = 54 + Z.of_nat (List.length (v_data v)).
Proof. unfold vlr_total_size. lia. Qed.

Lemma vlr_new_wf : vlr_wf vlr_new.
Proof.
  assert (R : forall n, bytes_ok (repeat 0 n)).
  { intros n. apply Forall_forall. intros x Hx. apply repeat_spec in Hx. subst. unfold is_byte. lia. }
  repeat split; try apply R; vm_compute; congruence.
Qed.

Lemma vlr_equal_spec a b : vlr_equal a b = true <->
  (v_id a = v_id b /\ v_user a = v_user b /\ v_desc a = v_desc b /\ v_reserved a = v_reserved b /\ v_size a = v_size b).
Proof.
  unfold vlr_equal. rewrite !andb_true_iff, !Z.eqb_eq, !zlist_eqb_spec. tauto.
Qed.
Lemma vlr_equal_payload_witness :
  exists a b, vlr_wf a /\ vlr_wf b /\ vlr_equal a b = true /\ v_data a <> v_data b.
Proof.
  exists (vlr_set_data vlr_new [1]), (vlr_set_data vlr_new [2]).
  assert (R : forall n, bytes_ok (repeat 0 n)).
  { intros n. apply Forall_forall. intros x Hx. apply repeat_spec in Hx. subst. unfold is_byte. lia. }
  split; [|split; [|split; [reflexivity|discriminate]]];
  repeat split; try apply R; try (vm_compute; congruence);
  (apply Forall_cons; [unfold is_byte; lia|apply Forall_nil]).
Qed.

(** *** VLR lists (C11) *)
Lemma same_vlr_spec name id v : same_vlr name id v = true <-> vlr_matches name id v.
Proof.
  unfold same_vlr, vlr_matches. rewrite andb_true_iff, zlist_eqb_spec, Z.eqb_eq, vlr_get_user_plain, c_string_iff.
  split; intros [H1 H2]; split; congruence.
Qed.

Lemma without_filter {A} (P : A -> Prop) (f : A -> bool) l :
  (forall x, f x = true <-> P x) -> without P l (filter (fun x => negb (f x)) l).
Proof.
  intros H. induction l as [|x l IH]; cbn [filter]; [constructor|].
  destruct (f x) eqn:E; cbn [negb].
  - apply wo_drop; [now apply H|exact IH].
  - apply wo_keep; [|exact IH]. intros Hp. apply H in Hp. congruence.
Qed.

Definition vcount_ok (h : header) : Prop := h_nvlr h = Z.of_nat (List.length (h_vlrs h)) mod 2 ^ 32.
Definition only_vlrs_changed (h h' : header) : Prop := h' = h_upd_vlrs h (h_nvlr h') (h_vlrs h').

Lemma ovc_refl h : only_vlrs_changed h h.
Proof. unfold only_vlrs_changed. destruct h; reflexivity. Qed.
Lemma ovc_trans a b c : only_vlrs_changed a b -> only_vlrs_changed b c -> only_vlrs_changed a c.
Proof. unfold only_vlrs_changed. intros H1 H2. rewrite H2, H1. reflexivity. Qed.

Lemma add_vlr_facts h v : vcount_ok h -> vcount_ok (add_vlr h v) /\ only_vlrs_changed h (add_vlr h v) /\
  h_vlrs (add_vlr h v) = h_vlrs h ++ [v] /\ h_srs (add_vlr h v) = h_srs h.
Proof.
  unfold vcount_ok, only_vlrs_changed, add_vlr. cbn [h_nvlr h_vlrs h_srs h_upd_vlrs].
  intros H. repeat split. rewrite app_length. cbn [List.length]. rewrite H.
  rewrite Zplus_mod_idemp_l. f_equal. lia.
Qed.

Lemma add_vlrs_facts l : forall h, vcount_ok h -> let h' := fold_left add_vlr l h in
  vcount_ok h' /\ only_vlrs_changed h h' /\ h_vlrs h' = h_vlrs h ++ l /\ h_srs h' = h_srs h.
Proof.
  induction l as [|v l IH]; intros h Hc; cbv zeta; cbn [fold_left].
  - rewrite app_nil_r. split; [exact Hc|]. split; [apply ovc_refl|]. auto.
  - destruct (add_vlr_facts h v Hc) as (A1 & A2 & A3 & A4).
    destruct (IH _ A1) as (B1 & B2 & B3 & B4).
    split; [exact B1|]. split; [exact (ovc_trans _ _ _ A2 B2)|]. split; [|congruence].
    rewrite B3, A3, <- app_assoc. reflexivity.
Qed.

Lemma delete_vlrs_facts h name id : let h' := delete_vlrs h name id in
  vcount_ok h' /\ only_vlrs_changed h h' /\
  h_vlrs h' = filter (fun v => negb (same_vlr name id v)) (h_vlrs h) /\ h_srs h' = h_srs h.
Proof. unfold vcount_ok, only_vlrs_changed, delete_vlrs. cbn [h_nvlr h_vlrs h_srs h_upd_vlrs]. auto. Qed.

Lemma filter_filter {A} (f g : A -> bool) l : filter f (filter g l) = filter (fun x => g x && f x) l.
Proof. induction l as [|x l IH]; cbn [filter]; [reflexivity|]. destruct (g x); cbn [filter andb]; rewrite IH; reflexivity. Qed.

Lemma vop_refines h o : vcount_ok h -> vop_typed o ->
  match vop_run h o with
  | Ok h' => vstep (h_srs h) (h_vlrs h) o (h_vlrs h') false /\ vcount_ok h' /\ only_vlrs_changed h h'
  | Throw e => vstep (h_srs h) (h_vlrs h) o (h_vlrs h) true /\ e = EOutOfRange
  | UB _ => False
  end.
Proof.
  intros Hc Ht. destruct o as [v|i|name id|]; cbn [vop_run vop_typed] in *.
  - destruct (add_vlr_facts h v Hc) as (A1 & A2 & A3 & A4). rewrite A3. split; [constructor|auto].
  - unfold delete_vlr. destruct (Z.leb_spec (Z.of_nat (List.length (h_vlrs h))) i) as [H|H].
    + split; [now constructor|reflexivity].
    + cbn [h_vlrs h_upd_vlrs].
      destruct (nth_error (h_vlrs h) (Z.to_nat i)) as [v|] eqn:En; [|apply nth_error_None in En; lia].
      destruct (nth_error_split _ _ En) as (a & b & E & Ea).
      split; [|split].
      * rewrite E. rewrite <- Ea. rewrite firstn_app, Nat.sub_diag, firstn_all. cbn [firstn].
        rewrite app_nil_r. rewrite skipn_app. replace (S (List.length a) - List.length a)%nat with 1%nat by lia.
        rewrite skipn_all2 by lia. cbn [skipn app]. constructor. lia.
      * unfold vcount_ok. reflexivity.
      * unfold only_vlrs_changed. reflexivity.
  - destruct (delete_vlrs_facts h name id) as (A1 & A2 & A3 & A4). rewrite A3. split; [|auto].
    constructor. apply without_filter. apply same_vlr_spec.
  - unfold set_georeference.
    set (h1 := delete_vlrs h (str "LASF_Projection") 34735).
    set (h2 := delete_vlrs h1 (str "LASF_Projection") 34736).
    set (h3 := delete_vlrs h2 (str "LASF_Projection") 34737).
    destruct (delete_vlrs_facts h (str "LASF_Projection") 34735) as (A1 & A2 & A3 & A4). fold h1 in A1, A2, A3, A4.
    destruct (delete_vlrs_facts h1 (str "LASF_Projection") 34736) as (B1 & B2 & B3 & B4). fold h2 in B1, B2, B3, B4.
    destruct (delete_vlrs_facts h2 (str "LASF_Projection") 34737) as (C1 & C2 & C3 & C4). fold h3 in C1, C2, C3, C4.
    destruct (add_vlrs_facts (h_srs h) h3 C1) as (D1 & D2 & D3 & D4).
    split; [|split].
    + rewrite D3. constructor. rewrite C3, B3, A3, !filter_filter.
      rewrite (filter_ext _ (fun v => negb (same_vlr (str "LASF_Projection") 34735 v || (same_vlr (str "LASF_Projection") 34736 v || same_vlr (str "LASF_Projection") 34737 v)))).
      2:{ intros v. rewrite !negb_orb. reflexivity. }
      apply without_filter. intros v. rewrite !orb_true_iff, !same_vlr_spec. unfold is_geotiff_vlr.
      split.
      * intros [M|[M|M]]; [exists 34735|exists 34736|exists 34737]; (split; [cbn; auto|exact M]).
      * intros (id & [<-|[<-|[<-|[]]]] & M); auto.
    + exact D1.
    + exact (ovc_trans _ _ _ A2 (ovc_trans _ _ _ B2 (ovc_trans _ _ _ C2 D2))).
Qed.

Lemma ovc_srs h h' : only_vlrs_changed h h' -> h_srs h' = h_srs h.
Proof. intros ->. reflexivity. Qed.

Lemma vops_refine os : forall h, vcount_ok h -> Forall vop_typed os ->
  exists h', vops_run h os = Ok h' /\ vsteps (h_srs h) (h_vlrs h) os (h_vlrs h') /\
    vcount_ok h' /\ only_vlrs_changed h h'.
Proof.
  induction os as [|o os IH]; intros h Hc Ht.
  - exists h. split; [reflexivity|]. split; [constructor|]. split; [exact Hc|apply ovc_refl].
  - inversion Ht as [|? ? T1 T2]; subst. cbn [vops_run].
    pose proof (vop_refines h o Hc T1) as R. destruct (vop_run h o) as [h1|e|u].
    + destruct R as (R1 & R2 & R3). destruct (IH h1 R2 T2) as (h' & E & S & C & O).
      exists h'. split; [exact E|]. split; [|split; [exact C|exact (ovc_trans _ _ _ R3 O)]].
      econstructor; [exact R1|]. rewrite <- (ovc_srs _ _ R3). exact S.
    + destruct R as (R1 & _). destruct (IH h Hc T2) as (h' & E & S & C & O).
      exists h'. split; [exact E|]. split; [|split; [exact C|exact O]]. econstructor; [exact R1|exact S].
    + contradiction.
Qed.

(** The size of the VLR block. *)
Lemma vlr_sizes_spec l : forall n, n = List.length l ->
  vlr_sizes n l = Ok (fold_right (fun v s => 54 + Z.of_nat (List.length (v_data v)) + s) 0 l mod 2 ^ 32).
Proof.
  induction l as [|v l IH]; intros n ->; cbn [vlr_sizes List.length fold_right]; [reflexivity|].
  rewrite (IH _ eq_refl). cbn [obind]. f_equal. rewrite vlr_total_size_spec. now rewrite <- Zplus_mod.
Qed.
Lemma vlr_block_size_spec h : h_nvlr h = Z.of_nat (List.length (h_vlrs h)) ->
  vlr_block_size h = Ok (fold_right (fun v s => 54 + Z.of_nat (List.length (v_data v)) + s) 0 (h_vlrs h) mod 2 ^ 32).
Proof. intros H. unfold vlr_block_size. rewrite H, Nat2Z.id. now apply vlr_sizes_spec. Qed.

Lemma vlr_block_size_ub : exists h, is_ok (header_new 1 2012) = true /\ header_new 1 2012 = Ok h /\
  vlr_block_size (set_records_count h 1) = UB UBOutOfBounds.
Proof.
  assert (S : exists s, schema_new 3 = Ok s) by (eexists; vm_compute; reflexivity).
  destruct S as (s & S). unfold header_new. rewrite S. cbn [obind].
  eexists. split; [reflexivity|]. split; [reflexivity|]. reflexivity.
Qed.

(** *** Header text (C45) *)
Lemma set_system_id_spec h s :
  if (List.length s <=? 32)%nat
  then exists h', set_system_id h s = Ok h' /\ c_string_of s (get_system_id false h') /\
         List.length (get_system_id true h') = 32%nat /\ get_system_id true h' = pad_to 32 (get_system_id false h') /\
         h' = h_upd_sysid h (h_sysid h') /\ List.length (h_sysid h') = 32%nat
  else set_system_id h s = Throw EInvalidArgument.
Proof.
  unfold set_system_id, eSystemIdSize. destruct (Nat.leb_spec (List.length s) 32) as [Hl|Hl].
  - replace (32 <? List.length s)%nat with false by lia.
    eexists. split; [reflexivity|]. unfold get_system_id, eSystemIdSize.
    assert (E : until_nul (h_sysid (h_upd_sysid h (strncpy 32 s))) = until_nul s) by (cbn [h_upd_sysid h_sysid]; now apply strncpy_short).
    rewrite E. pose proof (until_nul_length s). cbn [andb].
    split; [apply until_nul_c_string|]. 
    destruct (Nat.ltb_spec (List.length (until_nul s)) 32) as [H1|H1].
    + split; [apply pad_to_length; lia|]. split; [reflexivity|]. cbn [h_upd_sysid h_sysid]. split; [reflexivity|apply strncpy_length].
    + split; [lia|]. split. { unfold pad_to. replace (32 - List.length (until_nul s))%nat with 0%nat by lia. cbn. now rewrite app_nil_r. }
      cbn [h_upd_sysid h_sysid]. split; [reflexivity|apply strncpy_length].
  - replace (32 <? List.length s)%nat with true by lia. reflexivity.
Qed.

Lemma set_software_id_spec h s :
  if (List.length s <=? 32)%nat
  then exists h', set_software_id h s = Ok h' /\ c_string_of s (get_software_id false h') /\
         List.length (get_software_id true h') = 32%nat /\ get_software_id true h' = pad_to 32 (get_software_id false h') /\
         h' = h_upd_swid h (h_swid h') /\ List.length (h_swid h') = 32%nat
  else set_software_id h s = Throw EInvalidArgument.
Proof.
  unfold set_software_id, eSoftwareIdSize. destruct (Nat.leb_spec (List.length s) 32) as [Hl|Hl].
  - replace (32 <? List.length s)%nat with false by lia.
    eexists. split; [reflexivity|]. unfold get_software_id, eSoftwareIdSize.
    assert (E : until_nul (h_swid (h_upd_swid h (strncpy 32 s))) = until_nul s) by (cbn [h_upd_swid h_swid]; now apply strncpy_short).
    rewrite E. pose proof (until_nul_length s). cbn [andb].
    split; [apply until_nul_c_string|]. 
    destruct (Nat.ltb_spec (List.length (until_nul s)) 32) as [H1|H1].
    + split; [apply pad_to_length; lia|]. split; [reflexivity|]. cbn [h_upd_swid h_swid]. split; [reflexivity|apply strncpy_length].
    + split; [lia|]. split. { unfold pad_to. replace (32 - List.length (until_nul s))%nat with 0%nat by lia. cbn. now rewrite app_nil_r. }
      cbn [h_upd_swid h_swid]. split; [reflexivity|apply strncpy_length].
  - replace (32 <? List.length s)%nat with true by lia. reflexivity.
Qed.

(** ASCII "LASF" is 76 65 83 70. *)
Lemma set_file_signature_spec h s :
  ((exists r, s = [76; 65; 83; 70] ++ r) ->
     exists h', set_file_signature h s = Ok h' /\ get_file_signature h' = [76; 65; 83; 70] /\ h' = h_upd_sig h (h_sig h')) /\
  ((~ exists r, s = [76; 65; 83; 70] ++ r) -> set_file_signature h s = Throw EInvalidArgument).
Proof.
  unfold set_file_signature, eFileSignatureSize. change FileSignature with [76; 65; 83; 70].
  split.
  - intros (r & ->). cbn [app firstn]. cbn [zlist_eqb Z.eqb Pos.eqb andb].
    eexists. split; [reflexivity|]. unfold get_file_signature. cbn [h_upd_sig h_sig]. split; [|reflexivity].
    unfold strncpy, pad_to. cbn [until_nul Z.eqb firstn app List.length repeat Nat.sub]. reflexivity.
  - intros H. destruct (zlist_eqb (firstn 4 s) [76; 65; 83; 70]) eqn:E; [|reflexivity].
    apply zlist_eqb_spec in E. exfalso. apply H. exists (skipn 4 s). rewrite <- E. now rewrite firstn_skipn.
Qed.

(** *** C17 *)
Lemma header_copy_never_equal h : header_eq false h h = Ok false.
Proof.
  unfold header_eq. destruct (negb (f64x3_eq (h_scale h) (h_scale h))); [reflexivity|].
  destruct (negb (f64x3_eq (h_offset h) (h_offset h))); reflexivity.
Qed.

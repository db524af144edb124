(** C75: point transforms in the reader and in las2las.  Vocabulary:
    Transf_Spec.v, Las2las_Spec.v; model: Transf_Model.v. *)
From Coq Require Import ZArith List Bool Lia String.
From Coq Require Import ZifyBool ZifyNat.
Import ListNotations.
From Verif Require Import Endian_Proofs Outcome Bytes Float64 CStr Vlr_Model Schema_Model Schema_Spec Schema_Api Schema_Proofs Header_Model Point_Model Point_Spec Point_Api Point_Proofs Coord_Api Coord_Header Stream_Model Stream_Proofs
  IO_Spec Reader_Proofs Reader_Vlrs Reader_Model Reader_Spec Reader_Schema Reader_Api Reader_Open Reader_Hist Reader_Filter Writer_Model Writer_Api Writer_Proofs Writer_File
  Writer_Append IO_Samples Prop_Reader Iter_Spec Iter_Model Iter_Proofs Rewrite_Proofs Rewrite_Gap Rewrite_Read Prop_Rewrite Summary_Model Summary_Spec Summary_Proofs Prop_Summary Text_Model Text_Proofs
  Las2las_Spec Las2las_Copy Las2las_Model Las2las_Summary Las2las_File Las2las_Loop Las2las_Points Las2las_Main Las2las_Split Prop_Las2las
  Transform_Model Prop_Transform Transf_Model Transf_Spec Transf_Proofs.
Local Open Scope Z_scope.
Local Notation length := List.length (only parsing).

(** ** The transforms give whole records *)
Definition keeps_record (p q : point) : Prop := p_hdr q = p_hdr p /\ bytes_ok (p_data q) /\ length (p_data q) = length (p_data p).
Lemma keeps_wf p q : point_wf p -> keeps_record p q -> point_wf q.
Proof. intros (H1 & H2 & H3) (W1 & W2 & W3). unfold point_wf, p_format in *. rewrite W1, W3. auto. Qed.
Lemma keeps_trans p q r : keeps_record p q -> keeps_record q r -> keeps_record p r.
Proof. intros (A & B & C) (D & E & G). split; [congruence|]. split; [exact E|congruence]. Qed.
Lemma keeps_refl p : point_wf p -> keeps_record p p.
Proof. intros (_ & B & _). split; [reflexivity|]. auto. Qed.

Lemma coord_keeps ax p v q : point_wf p -> set_coord ax p v = Ok q -> keeps_record p q.
Proof.
  intros W E. rewrite set_coord_raw in E. destruct (quantise _ _ v) as [n| |]; cbn [obind] in E; try discriminate.
  assert (R : exists s, attr_range (p_format p) (raw_attr ax) = Some (s, 32, true)) by (destruct ax; eexists; reflexivity). destruct R as (s & R).
  destruct (api_set_spec p (raw_attr ax) n s 32 true W) as (q' & E' & A & B & C & _); [destruct ax; reflexivity|exact R|destruct ax; discriminate|].
  rewrite E in E'. apply Writer_Append.Ok_inj in E'. subst q'. split; [exact A|auto].
Qed.
Lemma check_step wrap p1 (rest : outcome point) q : (let! x := get_raw_x p1 in let! _ := check_raw wrap x in let! y := get_raw_y p1 in let! _ := check_raw wrap y in
   let! z := get_raw_z p1 in let! _ := check_raw wrap z in rest) = Ok q -> rest = Ok q.
Proof.
  destruct (get_raw_x p1); cbn [obind]; try discriminate. destruct (check_raw wrap _); cbn [obind]; try discriminate.
  destruct (get_raw_y p1); cbn [obind]; try discriminate. destruct (check_raw wrap _); cbn [obind]; try discriminate.
  destruct (get_raw_z p1); cbn [obind]; try discriminate. destruct (check_raw wrap _); cbn [obind]; try discriminate. auto.
Qed.
Lemma translate_keeps wrap ops : forall p q, point_wf p -> transform wrap ops p = Ok q -> keeps_record p q.
Proof.
  induction ops as [|op ops IH]; intros p q W E; cbn [transform] in E.
  - apply Writer_Append.Ok_inj in E. subst q. now apply keeps_refl.
  - destruct (apply_op op p) as [p1| |] eqn:A; cbn [obind] in E; try discriminate. apply check_step in E.
    unfold apply_op in A. destruct (get_coord _ p) as [x| |]; cbn [obind] in A; try discriminate. pose proof (coord_keeps _ _ _ _ W A) as K.
    exact (keeps_trans _ _ _ K (IH _ _ (keeps_wf _ _ W K) E)).
Qed.

(** the scan angle *)
Definition angles : list Z := map (fun k => Z.of_nat k - 128) (seq 0 256).
Definition angle_check (a : Z) : bool :=
  match fix_angle a with Ok b => let m := (2 * 1944445 * a + 1000000) / 2000000 in
    (2 * Z.abs (1000000 * m - 1944445 * a) <? 1000000) && (b =? Z.max (-128) (Z.min 127 m)) | _ => false end.
Lemma angle_checked : forallb angle_check angles = true.
Proof. vm_compute. reflexivity. Qed.
Lemma fix_angle_ok a : -128 <= a <= 127 -> exists b, fix_angle a = Ok b /\ optech_angle a b /\ -128 <= b <= 127.
Proof.
  intros R. assert (I : In a angles) by (unfold angles; apply in_map_iff; exists (Z.to_nat (a + 128)); split; [lia|apply in_seq; lia]).
  pose proof angle_checked as C. rewrite forallb_forall in C. specialize (C a I). unfold angle_check in C. destruct (fix_angle a) as [b| |]; try discriminate.
  apply andb_true_iff in C. destruct C as (C1 & C2). apply Z.ltb_lt in C1. apply Z.eqb_eq in C2. exists b. split; [reflexivity|]. split; [eexists; split; [exact C1|exact C2]|lia].
Qed.
Lemma angle_range k : attr_range k AScanAngleRank = Some (128, 8, true).
Proof. reflexivity. Qed.
Lemma optech_ok p : point_wf p -> exists q, optech_transform p = Ok q /\ keeps_record p q /\ other_angle (p_hdr p) (p_data p) (p_data q).
Proof.
  intros W. pose proof (api_get_spec p AScanAngleRank 128 8 true W (angle_range _)) as G. cbn [api_get] in G.
  unfold optech_transform. rewrite G. cbn [obind]. set (a := decode_bits true 8 (bits_at (rec_int p) 128 8)) in *.
  assert (Ra : -128 <= a <= 127).
  { unfold a, decode_bits, to_signed. pose proof (bits_at_range (rec_int p) 128 8 ltac:(lia)) as B. change (2 ^ 8) with 256 in *. change (2 ^ (8 - 1)) with 128. rewrite Z.mod_small by lia. destruct (_ <? 128) eqn:L; lia. }
  destruct (fix_angle_ok a Ra) as (b & E & O & Rb). rewrite E. cbn [obind].
  destruct (api_set_spec p AScanAngleRank b 128 8 true W eq_refl (angle_range _) ltac:(discriminate)) as (q & ES & WR). cbn [api_set] in ES. exists q. split; [exact ES|].
  pose proof WR as (W1 & W2 & W3 & W4). split; [split; [exact W1|auto]|]. split; [exact W3|].
  pose proof W as (Wf & Wb & Wl). pose proof (format_bytes_ge (p_format p)) as H20.
  split.
  - intros i Hi. unfold set_scan_angle, set_byte in ES. rewrite assign_ok in ES by lia. cbn [obind] in ES. apply Writer_Append.Ok_inj in ES. subst q. cbn [p_data p_upd].
    change (Z.to_nat 16) with 16%nat. destruct (Nat.lt_ge_cases i 16) as [L|L].
    + rewrite nth_error_app1 by (rewrite firstn_length; lia). rewrite <- (firstn_skipn 16 (p_data p)) at 2. rewrite nth_error_app1 by (rewrite firstn_length; lia). reflexivity.
    + rewrite nth_error_app2 by (rewrite firstn_length; lia). rewrite <- (firstn_skipn 17 (p_data p)) at 3. rewrite (nth_error_app2 (firstn 17 _)) by (rewrite firstn_length; lia).
      rewrite !firstn_length. replace (i - Nat.min 16 (length (p_data p)))%nat with (S (i - 17))%nat by lia. replace (i - Nat.min 17 (length (p_data p)))%nat with (i - 17)%nat by lia. reflexivity.
  - exists a, b. split; [destruct p; exact G|]. split; [|exact O].
    assert (Wq : point_wf q) by (apply (keeps_wf p q W); split; [exact W1|auto]).
    pose proof (api_get_spec q AScanAngleRank 128 8 true Wq (angle_range _)) as Gq. replace (mkPoint (p_data q) (p_hdr p)) with q by (rewrite <- W1; destruct q; reflexivity).
    rewrite Gq, W4. rewrite bits_at_put_same by lia. f_equal. unfold decode_bits, to_signed. change (2 ^ 8) with 256. change (2 ^ (8 - 1)) with 128. rewrite Zmod_mod.
    destruct (Z_lt_le_dec b 0); [replace (b mod 256) with (b + 256) by (apply (Z.mod_unique b 256 (-1)); lia)|rewrite Z.mod_small by lia]; destruct (_ <? 128) eqn:L; lia.
Qed.

(** All transforms of a command line. *)
Lemma transforms_keep wrap cast o ts : get_transforms wrap cast o = Ok ts -> forall p q, point_wf p -> transform_point ts p = Ok q -> keeps_record p q.
Proof.
  intros E. assert (A : Forall (fun f => forall p q, point_wf p -> f p = Ok q -> keeps_record p q) ts).
  { unfold get_transforms in E. assert (B : exists a, ts = a ++ (if o_optech o then [optech_transform] else []) /\ Forall (fun f => forall p q, point_wf p -> f p = Ok q -> keeps_record p q) a).
    { destruct (o_translate o) as [s|]; [|cbn [obind] in E; exists []; split; [now injection E|constructor]].
      destruct (translation_new cast s) as [ops| |]; cbn [obind] in E; try discriminate. exists [transform wrap ops]. split; [now injection E|]. constructor; [|constructor]. apply translate_keeps. }
    destruct B as (a & -> & B). apply Forall_app. split; [exact B|]. destruct (o_optech o); constructor; [|constructor].
    intros p q W EQ. destruct (optech_ok p W) as (q' & E' & K & _). rewrite EQ in E'. apply Writer_Append.Ok_inj in E'. now subst q'. }
  clear E. induction A as [|f ts Hf _ IH]; intros p q W EQ; cbn [transform_point] in EQ.
  - apply Writer_Append.Ok_inj in EQ. subst q. now apply keeps_refl.
  - destruct (f p) as [p1| |] eqn:E1; cbn [obind] in EQ; try discriminate. pose proof (Hf _ _ W E1) as K. exact (keeps_trans _ _ _ K (IH _ _ (keeps_wf _ _ W K) EQ)).
Qed.

(** ** Reading *)
(** Record [d'] is what the transforms make of record [d]. *)
Definition becomes (ts : list transformer) (h : header) (d d' : list Z) : Prop := exists q, transform_point ts (mkPoint d h) = Ok q /\ d' = p_data q.
Definition all_transform (ts : list transformer) (h : header) (F : list Z) : Prop :=
  forall d, In d (records_from F 0) -> exists q, transform_point ts (mkPoint d h) = Ok q.

Lemma record_in F i : 0 <= i < f_npts F -> In (file_record F i) (records_from F 0).
Proof.
  intros H. unfold records_from. apply in_map_iff. exists (Z.to_nat i). split; [f_equal; lia|]. apply in_seq. lia.
Qed.

Section Common.
Variables (wrap : bool) (cast : string -> option f64) (o : popts) (ts : list transformer) (F : list Z) (h : header).
Hypothesis HS : standard F.
Hypothesis Sh : shows_file F h.
Hypothesis GT : get_transforms wrap cast o = Ok ts.
Hypothesis AT : all_transform ts h F.
Lemma tr_ok i : 0 <= i < f_npts F -> exists d, transformed ts (mkPoint (file_record F i) h) = Ok d /\ bytes_ok d /\ Z.of_nat (length d) = f_reclen F.
Proof.
  intros Hi. pose proof HS as (HA & HP). pose proof HA as (HF & _ & _ & HC). pose proof (proj1 HF) as HB.
  destruct (AT (file_record F i) (record_in F i Hi)) as (q & E).
  assert (B : bytes_ok (file_record F i)) by now apply file_record_bytes.
  assert (L : Z.of_nat (length (file_record F i)) = f_reclen F) by (rewrite (file_record_length F i HC HB) by lia; destruct HC; lia).
  destruct (transforms_keep wrap cast o ts GT _ q (proj1 (file_point F h _ HP Sh B L)) E) as (_ & K2 & K3). cbn [p_data] in K3.
  exists (p_data q). unfold transformed. rewrite E. split; [reflexivity|]. split; [exact K2|congruence].
Qed.
Lemma becomes_ok ds ds' : Forall2 (fun d d' => transformed ts (mkPoint d h) = Ok d' /\ a_record F d /\ buffer F d') ds ds' -> Z.of_nat (length ds) < 2 ^ 32 ->
  Forall2 (becomes ts h) ds ds' /\ recs_ok F ds'.
Proof.
  intros H L. pose proof HS as (HA & _). pose proof HA as (_ & _ & _ & HC). split.
  - clear L. induction H as [|d d' ds ds' (E & _) _ IH]; constructor; [|exact IH]. unfold transformed in E. destruct (transform_point ts _) as [q| |] eqn:T; cbn [obind] in E; try discriminate.
    apply Writer_Append.Ok_inj in E. exists q. auto.
  - assert (LL : length ds' = length ds) by (clear - H; induction H; cbn [List.length]; congruence). split; [|now rewrite LL].
    clear L LL. induction H as [|d d' ds ds' (_ & _ & B & L) _ IH]; constructor; [|exact IH]. split; [exact B|]. destruct HC as (C & _). lia.
Qed.
End Common.

(** The points read with transforms are those read without, each transformed
    once; the filter sees them untransformed. *)
Lemma read_transformed wrap cast t F o ts keep fuel r : standard F -> filterable F keep -> (Z.to_nat (f_npts F) < fuel)%nat ->
  get_transforms wrap cast o = Ok ts -> reader_open (t_xml t) (t_doy t) (t_year t) F = Ok r -> all_transform ts (r_hdr r) F ->
  exists ds' r1, read_all_tr (the_filter keep) (transformed ts) fuel r tt = Ok (ds', true, r1, tt) /\ rinv F r1 /\
    Forall2 (becomes ts (r_hdr r)) (delivered F (r_hdr r) keep) ds' /\ recs_ok F ds'.
Proof.
  intros HS HK Hf GT E AT. pose proof HS as (HA & HP). pose proof HA as (HF & HN & FS & HC).
  destruct (delivered_ok t F keep fuel HS HK Hf) as (r' & r1 & E' & RA & I1). rewrite E in E'. apply Writer_Append.Ok_inj in E'. subst r'.
  destruct (plain_header (t_xml t) (t_doy t) (t_year t) F HP) as (r' & E' & Sh & _). rewrite E in E'. apply Writer_Append.Ok_inj in E'. subst r'.
  destruct (open_ok (t_xml t) (t_doy t) (t_year t) F HF HN) as (r' & E' & Hi & Hc & _). rewrite E in E'. apply Writer_Append.Ok_inj in E'. subst r'.
  assert (EW : ends_well F \/ the_filter keep = None).
  { destruct keep as [k|]; [left; apply HK; discriminate|right; reflexivity]. }
  assert (RD : ready F (r_hdr r) r) by (split; [exact Hi|split; [reflexivity|]]; intros; lia).
  assert (BU : buffer F (r_data r)) by (pose proof Hi as (_ & _ & _ & _ & _ & _ & W7 & W8 & _); split; assumption).
  destruct (read_tr F (r_hdr r) (transformed ts) HF HC (tr_ok wrap cast o ts F (r_hdr r) HS Sh GT AT) (the_filter keep) fuel EW r (r_data r) tt _ r1 tt RD BU RA) as (ds' & r2 & E2 & I2 & F2).
  replace (rd_data r (r_data r)) with r in E2 by (destruct r; reflexivity).
  destruct (becomes_ok ts F (r_hdr r) HS _ _ F2) as (B1 & B2); [apply (delivered_recs F (r_hdr r) keep HS)|]. exists ds', r2. auto.
Qed.
Theorem C75_reading : forall wrap cast t F o ts keep fuel, translatable F -> filterable F keep -> (Z.to_nat (f_npts F) < fuel)%nat -> get_transforms wrap cast o = Ok ts ->
  exists r, reader_open (t_xml t) (t_doy t) (t_year t) F = Ok r /\
    (all_transform ts (r_hdr r) F -> exists ds' r1, read_all_tr (the_filter keep) (transformed ts) fuel r tt = Ok (ds', true, r1, tt) /\
       Forall2 (becomes ts (r_hdr r)) (delivered F (r_hdr r) keep) ds').
Proof.
  intros wrap cast t F o ts keep fuel (HS & _) HK Hf GT. pose proof HS as (_ & HP).
  destruct (plain_header (t_xml t) (t_doy t) (t_year t) F HP) as (r & E & _). exists r. split; [exact E|]. intros AT.
  destruct (read_transformed wrap cast t F o ts keep fuel r HS HK Hf GT E AT) as (ds' & r1 & RA & _ & B & _). eauto.
Qed.
Print Assumptions C75_reading.
(** Random access too. *)
Theorem C75_random : forall wrap cast t F o ts n, translatable F -> get_transforms wrap cast o = Ok ts -> 0 <= n < f_npts F ->
  exists r, reader_open (t_xml t) (t_doy t) (t_year t) F = Ok r /\
    (all_transform ts (r_hdr r) F -> exists r1, reader_at (transformed ts) r n = (r1, Ok true) /\ becomes ts (r_hdr r) (file_record F n) (r_data r1)).
Proof.
  intros wrap cast t F o ts n (HS & _) GT Hn. pose proof HS as (HA & HP). pose proof HA as (HF & HN & FS & HC).
  destruct (open_ok (t_xml t) (t_doy t) (t_year t) F HF HN) as (r & E & Hi & _). exists r. split; [exact E|]. intros AT.
  destruct (at_exact F r n HF HC Hi ltac:(lia)) as (r1 & E1 & D1 & _). destruct (Z.ltb_spec n (f_npts F)); [|lia].
  destruct (AT (file_record F n) (record_in F n Hn)) as (q & EQ).
  unfold reader_at in *. destruct (h_npts (r_hdr r) <=? n); [discriminate|]. unfold impl_at in *. destruct (r_size r =? n); [discriminate|]. destruct (r_size r <? n); [discriminate|].
  destruct (read_record _ _ _) as [[d s1]|e|u]; [|destruct e; discriminate|discriminate].
  change (no_transform (r_point (rd_read r s1 d (r_current r)))) with (Ok d) in E1. cbv beta iota zeta in E1. apply (f_equal fst) in E1. cbn [fst] in E1. subst r1. change (r_data (rd_data (rd_read r s1 d (r_current r)) d)) with d in D1. subst d.
  change (r_point (rd_read r s1 (file_record F n) (r_current r))) with (mkPoint (file_record F n) (r_hdr r)). unfold transformed. rewrite EQ. cbn [obind].
  eexists. split; [reflexivity|]. exists q. auto.
Qed.
Print Assumptions C75_random.

(** ** las2las *)
Theorem C75_copy_partial : forall wrap cast t F o ts keep fuel, real_tool t -> translatable F -> filterable F keep -> (Z.to_nat (f_npts F) < fuel)%nat ->
  get_transforms wrap cast o = Ok ts ->
  exists r, reader_open (t_xml t) (t_doy t) (t_year t) F = Ok r /\
    (all_transform ts (r_hdr r) F -> exists ds' G, Forall2 (becomes ts (r_hdr r)) (delivered F (r_hdr r) keep) ds' /\
       las2las_tr wrap cast t o 0 0 (the_filter keep) tt fuel F = Ok [G] /\ finished F (r_hdr r) ds' G).
Proof.
  intros wrap cast t F o ts keep fuel TT (HS & HG & Hv & SS) HK Hf GT. destruct (part_ok t F HS HG Hv SS TT) as (r & E & Sh & P). exists r. split; [exact E|]. intros AT.
  destruct (read_transformed wrap cast t F o ts keep fuel r HS HK Hf GT E AT) as (ds & r1 & RA & I1 & B & RO). exists ds.
  set (h := r_hdr r) in *. destruct (P ds RO) as (G & EW & _ & q & G' & EQ & ER & FI). exists G'. split; [exact B|]. split; [|exact FI].
  unfold las2las_tr. rewrite E. cbn [obind]. fold h. rewrite GT. cbn [obind].
  destruct (session_split _ _ _ _ EW) as (w0 & w & E0 & EP & EC). rewrite E0. cbn [obind].
  rewrite (loop_feeds_tr t h 0 0 (the_filter keep) ts fuel r tt _ ds r1 tt RA). fold h. change (map (fun d => mkPoint d h) ds) with (points_of h ds).
  destruct (feed_one t h (points_of h ds) (mkLoop w0 cs_new (split_budget 0) 0 []) q w EQ EP) as (b & n & EF). rewrite EF. cbn [obind l_w l_cs l_done].
  rewrite EC. cbn [obind]. change (0 =? 0) with true. cbn [andb].
  pose proof HS as ((HF & HN & FS & HC) & _).
  destruct (reset_ok (t_xml t) F r1 HF HN FS I1) as (r2 & -> & _). cbn [obind]. rewrite ER. reflexivity.
Qed.
Print Assumptions C75_copy_partial.

Theorem C75_split_partial : forall wrap cast t F o ts keep fuel mb sp, real_tool t -> translatable F -> filterable F keep -> split_ok mb sp -> (Z.to_nat (f_npts F) < fuel)%nat ->
  get_transforms wrap cast o = Ok ts ->
  exists r, reader_open (t_xml t) (t_doy t) (t_year t) F = Ok r /\
    (all_transform ts (r_hdr r) F -> exists ds' gs G, Forall2 (becomes ts (r_hdr r)) (delivered F (r_hdr r) keep) ds' /\
       las2las_tr wrap cast t o mb sp (the_filter keep) tt fuel F = Ok (gs ++ [G]) /\ split_into F (r_hdr r) (quota F mb sp) ds' gs G).
Proof.
  intros wrap cast t F o ts keep fuel mb sp TT (HS & HG & Hv & SS) HK SO Hf GT. destruct (part_ok t F HS HG Hv SS TT) as (r & E & Sh & P). exists r. split; [exact E|]. intros AT.
  destruct (read_transformed wrap cast t F o ts keep fuel r HS HK Hf GT E AT) as (ds & r1 & RA & I1 & B & RO). exists ds.
  destruct (P [] (recs_firstn F 0 _ RO)) as (G0 & EW0 & _). destruct (session_split _ _ _ _ EW0) as (w0 & _ & E0 & _ & _).
  destruct (feed_split t F r mb sp HS SO Sh P (length ds) ds (mkLoop w0 cs_new (split_budget mb) 0 []) w0) as (l' & gs & G & EF & D & EC & SI); auto.
  { unfold cnt. cbn [l_pts l_bytes]. destruct SO as [(-> & H1)|(H1 & ->)].
    - destruct (Z.ltb_spec 0 sp); [reflexivity|lia].
    - change (0 <? 0) with false. cbv iota. unfold split_budget. f_equal. ring. }
  exists gs, G. split; [exact B|]. split; [|exact SI].
  unfold las2las_tr. rewrite E. cbn [obind]. rewrite GT. cbn [obind]. rewrite E0. cbn [obind].
  rewrite (loop_feeds_tr t (r_hdr r) mb sp (the_filter keep) ts fuel r tt _ _ r1 tt RA).
  change (map (fun d => mkPoint d (r_hdr r)) ds) with (points_of (r_hdr r) ds). rewrite EF. cbn [obind].
  rewrite EC. cbn [obind].
  assert (Z0 : (mb =? 0) && (sp =? 0) = false) by (destruct SO as [(-> & H1)|(H1 & ->)]; lia).
  rewrite Z0, D. cbn [l_done rev]. rewrite app_nil_r, rev_involutive. reflexivity.
Qed.
Print Assumptions C75_split_partial.

(** --fix-optech-scan-angle alone: no condition on the points. *)
Theorem C75_optech : forall wrap cast t F keep fuel, real_tool t -> translatable F -> filterable F keep -> (Z.to_nat (f_npts F) < fuel)%nat ->
  exists r ds' G, reader_open (t_xml t) (t_doy t) (t_year t) F = Ok r /\ Forall2 (other_angle (r_hdr r)) (delivered F (r_hdr r) keep) ds' /\
    las2las_tr wrap cast t (mkPopts None true) 0 0 (the_filter keep) tt fuel F = Ok [G] /\ finished F (r_hdr r) ds' G.
Proof.
  intros wrap cast t F keep fuel TT HT HK Hf.
  destruct (C75_copy_partial wrap cast t F (mkPopts None true) [optech_transform] keep fuel TT HT HK Hf eq_refl) as (r & E & P). exists r.
  pose proof HT as (HS & _). pose proof HS as (HA & HP). pose proof HA as (HF & _ & _ & HC). destruct (plain_header (t_xml t) (t_doy t) (t_year t) F HP) as (r' & E' & Sh & _). rewrite E in E'. apply Writer_Append.Ok_inj in E'. subst r'.
  assert (RW : forall d, bytes_ok d /\ Z.of_nat (length d) = f_reclen F -> point_wf (mkPoint d (r_hdr r))) by (intros d (B & L); exact (proj1 (file_point F (r_hdr r) d HP Sh B L))).
  destruct P as (ds' & G & B & EL & FI).
  { intros d Hd. pose proof (delivered_recs F (r_hdr r) None HS) as (D & _). cbn [delivered] in D. rewrite Forall_forall in D. destruct (optech_ok _ (RW d (D d Hd))) as (q & EQ & _).
    exists q. cbn [transform_point]. rewrite EQ. reflexivity. }
  exists ds', G. split; [exact E|]. split; [|auto].
  pose proof (delivered_recs F (r_hdr r) keep HS) as (D & _). clear - B D RW. induction B as [|d d' ds ds' (q & EQ & ->) _ IH]; constructor; [|apply IH; now apply Forall_inv_tail in D].
  apply Forall_inv in D. destruct (optech_ok _ (RW d D)) as (q' & E' & _ & O). cbn [transform_point] in EQ. rewrite E' in EQ. cbn [obind] in EQ. apply Writer_Append.Ok_inj in EQ. subst q'. exact O.
Qed.
Print Assumptions C75_optech.

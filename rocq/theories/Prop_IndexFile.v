(** C56: an index saved in the file it was made from (or in a file of its own) is
    found, accepted and answers box queries when the file is opened again.

    Vocabulary.  [make_index], [query_index]: Index_File.v (the programs).  IO_Spec.v:
    [pub_of_file], [file_vlrs]; Reader_Spec.v: [file_record]; Index_FileSpec.v:
    [file_point] (real coordinates of a point of a file), [file_x/y/z] (its bounds),
    [index_vlr]; Index_QuerySpec.v: [touches], [filters], [maybe_in], [surely_in];
    Index_Reopen.v: [covered] (what is asked of file and parameters); Prop_Rewrite.v:
    [standard]. *)
From Coq Require Import ZArith Reals List Bool Lia Lra String.
From Coq Require Import ZifyBool ZifyNat.
Import ListNotations.
From Verif Require Import Outcome Bytes CStr Float64 Float64_Proofs Vlr_Model Schema_Model Schema_Spec Bounds_Model Header_Model Point_Model Stream_Model Stream_Proofs
  IO_Spec Reader_Proofs Reader_Vlrs Reader_Model Reader_Spec Reader_Api Reader_Open Reader_Hist Writer_Model Writer_Api Writer_Proofs Writer_File Writer_RT IO_Round IO_Samples Prop_Reader
  Iter_Spec Iter_Model Iter_Proofs Rewrite_Proofs Rewrite_Read Prop_Rewrite Rewrite_Grow Chipper_Spec Chipper_Lists
  Index_Cell Index_Temp Index_Scan Index_Out Index_Query Index_Spec Index_Items Index_Groups Index_Filter Index_Load Index_Build Index_QuerySpec Index_ScanProofs Index_Query_Thm Coord_Proofs Prop_IndexQuery Index_Frame Index_Store Index_File Index_FileSpec Index_Saved Index_Reopen.
Local Open Scope Z_scope.
Local Notation length := List.length (only parsing).

(** The point numbers [ids] answer the query box: none twice, no point further than
    the margin outside, every point that is inside by the margin. *)
Definition answers (F : list Z) (bx by_ bz : range) (ids : list Z) : Prop :=
  NoDup ids /\
  (forall i, In i ids -> 0 <= i < f_npts F /\
     (filters bx (file_x F) -> maybe_in bx (file_x F) (c_x (file_point F i))) /\
     (filters by_ (file_y F) -> maybe_in by_ (file_y F) (c_y (file_point F i))) /\
     (filters bz (file_z F) -> maybe_in bz (file_z F) (c_z (file_point F i)))) /\
  (forall i, 0 <= i < f_npts F -> surely_in bx (file_x F) (c_x (file_point F i)) ->
     surely_in by_ (file_y F) (c_y (file_point F i)) -> surely_in bz (file_z F) (c_z (file_point F i)) -> In i ids).
(** the query box meets the box of the file *)
Definition meets (F : list Z) (bx by_ bz : range) : Prop := touches bx (file_x F) /\ touches by_ (file_y F) /\ touches bz (file_z F).
(** a file that can be indexed and has no index yet *)
Definition indexable (F : list Z) (pm : params) : Prop := covered F pm /\ Forall (fun v => index_vlr v = false) (file_vlrs F).

Lemma pt_at_file F i : 0 <= i < f_npts F -> pt_at (file_coords F) i = file_point F i.
Proof.
  intros H. unfold pt_at, file_coords. apply nth_error_nth. rewrite nth_error_map.
  assert (E : nth_error (zseq 0 (Z.to_nat (f_npts F))) (Z.to_nat i) = Some i). { unfold zseq. rewrite nth_error_map, nth_error_nth' with (d := 0%nat) by (rewrite seq_length; lia). rewrite seq_nth by lia. cbn [option_map]. f_equal. lia. }
  now rewrite E.
Qed.

(** ** The query on the saved VLRs *)
Lemma answer_core F pm h vs pre tail cur bx by_ bz : covered F pm ->
  build_index (file_job F pm) (file_coords F) = Ok (Some (h, head_vlr h :: vs)) -> stored (file_job F pm) (file_coords F) h vs ->
  forallb not_index pre = true -> forallb not_index tail = true -> meets F bx by_ bz ->
  exists q flag q' s, set_filter_values h bx by_ bz = Some (q, flag) /\
    index_filter (file_coords F) (map vlr_norm (pre ++ (head_vlr h :: vs) ++ tail)) (idx_of h) q cur None = Ok (idx_of h, q', s) /\ answers F bx by_ bz (fs_res s).
Proof.
  intros CV EB SD HP HT (TX & TY & TZ). pose proof CV as [ST _ _ _ _ _ _ _ _ _ _ _ SP]. pose proof ST as (HAF & HPF).
  pose proof (proj1 (proj1 HAF)) as HB. destruct (fields_nonneg F HB) as (_ & N0 & _).
  pose proof (covered_job F pm pre CV HP) as J.
  destruct (C42_query_partial _ _ bx by_ bz (idx_of h) cur J (spread_uncrowded _ _ SP) (st_data _ _ _ _ SD) TX TY TZ) as (h' & vl & q & fl & q' & s & B & Q & FI & A1 & A2 & A3).
  rewrite build_frame in B. change (rebase [] (file_job F pm)) with (file_job F pm) in B. rewrite EB in B. cbn [omap option_map fst snd] in B.
  apply Writer_Append.Ok_inj in B. assert (B1 : h = h') by exact (f_equal (fun o => match o with Some p => fst p | None => h end) B). assert (B2 : pre ++ head_vlr h :: vs = vl) by exact (f_equal (fun o => match o with Some p => snd p | None => [] end) B). clear B. subst h' vl.
  destruct (filter_tail _ _ tail _ _ _ _ _ _ FI) as (s2 & F2 & ER).
  { cbn [idx_of ix_h]. rewrite (st_data _ _ _ _ SD). exact HT. }
  exists q, fl, q', s2. split; [exact Q|]. split; [rewrite filter_norm, app_assoc; exact F2|]. rewrite ER. rewrite file_coords_length, Z.max_r in A2, A3 by lia. cbn [rebase file_job j_x j_y j_z] in A2, A3.
  split; [exact A1|]. split.
  - intros i Hi. destruct (A2 i Hi) as (R & X). rewrite (pt_at_file F i R) in X. split; [exact R|exact X].
  - intros i Hi X Y Z0. apply A3; [exact Hi| | |]; now rewrite (pt_at_file F i Hi).
Qed.

(** what a file with the same header block and records says *)
Lemma same_coords F G : standard G -> (forall i, 0 <= i < f_npts F -> file_record G i = file_record F i) ->
  ph_npts (pub_of_file G) = ph_npts (pub_of_file F) -> ph_scale (pub_of_file G) = ph_scale (pub_of_file F) -> ph_offset (pub_of_file G) = ph_offset (pub_of_file F) ->
  file_coords G = file_coords F.
Proof.
  intros ST HR EN ES EO. unfold file_coords. change (ph_npts (pub_of_file G)) with (f_npts G) in EN. change (ph_npts (pub_of_file F)) with (f_npts F) in EN. rewrite EN.
  apply map_ext_in. intros i Hi. unfold zseq in Hi. apply in_map_iff in Hi. destruct Hi as (k & <- & Hk). apply in_seq in Hk.
  unfold file_point, real_at. rewrite HR by lia.
  cbn [pub_of_file ph_scale ph_offset] in ES, EO. injection ES as -> -> ->. injection EO as -> -> ->. reflexivity.
Qed.
Lemma same_ranges F G : ph_max (pub_of_file G) = ph_max (pub_of_file F) -> ph_min (pub_of_file G) = ph_min (pub_of_file F) ->
  file_x G = file_x F /\ file_y G = file_y F /\ file_z G = file_z F.
Proof.
  intros E1 E2. cbn [pub_of_file ph_max ph_min] in E1, E2. injection E1 as X1 X2 X3. injection E2 as Y1 Y2 Y3. unfold file_x, file_y, file_z, real_at. now rewrite X1, X2, X3, Y1, Y2, Y3.
Qed.
Lemma covered_fin F pm : covered F pm -> fin_range (file_x F) /\ fin_range (file_y F) /\ fin_range (file_z F).
Proof. intros [_ _ _ [? ?] [? ?] [? ?] _ _ _ _ _ _ _]. unfold fin_range. tauto. Qed.

(** Points in P, index in the VLRs of G (the same file, or one of its own). *)
Lemma query_core sv xml doy year F pm h vs P G pre tail bx by_ bz : covered F pm ->
  build_index (file_job F pm) (file_coords F) = Ok (Some (h, head_vlr h :: vs)) -> stored (file_job F pm) (file_coords F) h vs ->
  standard P -> file_coords P = file_coords F -> f_npts P = f_npts F -> file_x P = file_x F -> file_y P = file_y F -> file_z P = file_z F ->
  match G with None => file_vlrs P = map vlr_norm (pre ++ (head_vlr h :: vs) ++ tail) | Some G => standard G /\ file_vlrs G = map vlr_norm (pre ++ (head_vlr h :: vs) ++ tail) end ->
  forallb not_index pre = true -> forallb not_index tail = true -> meets F bx by_ bz ->
  exists ids, query_index sv xml doy year P G bx by_ bz = Ok (Some ids) /\ answers F bx by_ bz ids.
Proof.
  intros CV EB SD SP EC EN EX EY EZ HG HP HT HM. pose proof SP as (HAP & HPP).
  destruct (open_reads xml doy year P HAP) as (r & E & HR & _). destruct (plain_header xml doy year P HPP) as (r' & E' & Hsh & _ & Hv & _). rewrite E in E'. apply Writer_Append.Ok_inj in E'. subst r'.
  destruct (all_coords_reads P _ _ r HR (std_reclen P SP)) as (r2 & d2 & EA & HR2 & _). rewrite EC in EA.
  destruct (answer_core F pm h vs pre tail (r_current r2) bx by_ bz CV EB SD HP HT HM) as (q & fl & q' & s & Q & FI & AN).
  assert (K : forall hd, h_nvlr hd = Z.of_nat (length (h_vlrs hd)) -> h_vlrs hd = map vlr_norm (pre ++ (head_vlr h :: vs) ++ tail) ->
    find_index (Z.to_nat (h_nvlr hd)) (h_vlrs hd) ix_new = Ok (idx_of h, true)).
  { intros hd E1 E2. rewrite E1, E2, Nat2Z.id. cbn [app]. apply find_first; [exact HP|exact (st_head _ _ _ _ SD)|]. rewrite map_length, app_length. cbn [List.length]. lia. }
  assert (V : validate (r_hdr r) (idx_of h) = Ok true).
  { destruct (covered_fin F pm CV) as (FX & FY & FZ). destruct (shows_reals P _ Hsh) as (_ & _ & RG). rewrite EX, EY, EZ in RG.
    apply (validate_same _ _ (file_x F) (file_y F) (file_z F)); auto; [exact (st_bounds _ _ _ _ SD)|]. rewrite (shows_npts P _ Hsh), (st_count _ _ _ _ SD). exact EN. }
  exists (fs_res s). split; [|exact AN]. unfold query_index. rewrite E. cbn [obind]. destruct G as [G|].
  - destruct HG as (SG & HV). destruct SG as (HAG & HPG). destruct (plain_header xml doy year G HPG) as (r' & E' & Hsh' & _ & Hv' & _). rewrite E'. cbn [obind]. unfold index_init.
    rewrite K; [|rewrite Hv'; destruct (file_vlrs_facts G (proj1 HAG)) as (_ & V2 & _); rewrite V2; exact (f_equal ph_nvlr (proj1 Hsh'))|rewrite Hv'; exact HV].
    cbn [obind]. rewrite V. cbn [obind]. cbn [pr_ok pr_ix pr_hdr pr_reader]. cbn [idx_of ix_h]. rewrite Q, EA. cbn [obind]. rewrite Hv', HV. fold (idx_of h). rewrite FI. reflexivity.
  - cbn [obind]. unfold index_init.
    rewrite K; [|rewrite Hv; destruct (file_vlrs_facts P (proj1 HAP)) as (_ & V2 & _); rewrite V2; exact (f_equal ph_nvlr (proj1 Hsh))|rewrite Hv; exact HG].
    cbn [obind]. rewrite V. cbn [obind]. cbn [pr_ok pr_ix pr_hdr pr_reader]. cbn [idx_of ix_h]. rewrite Q, EA. cbn [obind]. rewrite Hv, HG. fold (idx_of h). rewrite FI. reflexivity.
Qed.

Lemma crs_split l : forallb not_index l = true -> forallb not_index (filter (fun v => negb (is_crs v)) l) = true /\ forallb not_index (filter is_crs l) = true.
Proof. intros H. rewrite forallb_forall in H. split; apply forallb_forall; intros v Hv; apply filter_In in Hv; now apply H. Qed.
Lemma filter_index_none l : forallb not_index l = true -> filter (fun v => negb (index_vlr v)) (map vlr_norm l) = map vlr_norm l.
Proof.
  induction l as [|v l IH]; intros H; [reflexivity|]. cbn [forallb map filter] in *. apply andb_true_iff in H. destruct H as (H1 & H2).
  rewrite index_vlr_norm, <- index_vlr_not, H1. cbn [andb]. f_equal. exact (IH H2).
Qed.
Lemma filter_index_all l : Forall (fun v => index_vlr v = true) l -> filter (fun v => negb (index_vlr v)) (map vlr_norm l) = [].
Proof. induction 1 as [|v l H HF IH]; [reflexivity|]. cbn [map filter]. now rewrite index_vlr_norm, H. Qed.
Lemma index_parts j pts h vs : stored j pts h vs -> Forall (fun v => index_vlr v = true) (head_vlr h :: vs).
Proof.
  intros SD. constructor; [reflexivity|]. eapply Forall_impl; [|exact (st_kind _ _ _ _ SD)]. intros v (n & d & ->). reflexivity.
Qed.
Lemma indexable_find F pm r : indexable F pm -> h_vlrs r = file_vlrs F -> find_index (length (file_vlrs F)) (file_vlrs F) ix_new = Ok (ix_new, false).
Proof. intros (_ & H) _. apply find_none, no_index_all. exact H. Qed.
Lemma pub_counts F G d v n : pub_of_file G = Rewrite_Grow.with_counts (if u_at F 25 1 =? 0 then with_source (pub_of_file F) (u_at F 6 2) 0 else pub_of_file F) d v n ->
  f_npts G = n /\ ph_scale (pub_of_file G) = ph_scale (pub_of_file F) /\ ph_offset (pub_of_file G) = ph_offset (pub_of_file F) /\
  ph_max (pub_of_file G) = ph_max (pub_of_file F) /\ ph_min (pub_of_file G) = ph_min (pub_of_file F).
Proof. intros P. change (f_npts G) with (ph_npts (pub_of_file G)). rewrite P. destruct (_ =? _); repeat split. Qed.

(** ** The theorems *)

(** The header block of the new file is that of the old one but for the start of
    the records, the VLR count and the point count (and, for version 1.0, the
    source id and reserved fields, where the reserved value goes first: C53). *)
Definition grown_block (F G : list Z) (N : list vlr) (n : Z) : Prop :=
  pub_of_file G = Rewrite_Grow.with_counts (if u_at F 25 1 =? 0 then with_source (pub_of_file F) (u_at F 6 2) 0 else pub_of_file F) (grown_doff F N) (u_at F 100 4 + Z.of_nat (length N)) n.

(** An index built into a file without one: the new file has the same header block
    (but for the counts), the same other VLRs, georeferencing ones last, the same
    records; its index is accepted and answers every query box that meets the file. *)
Theorem C56_embedded_partial sv xml doy year pm force F : indexable F pm ->
  exists G N, make_index sv xml doy year pm force false F = Ok (true, Some G) /\
    grown_block F G N (f_npts F) /\
    filter (fun v => negb (index_vlr v)) (file_vlrs G) = map vlr_norm (geo_last (file_vlrs F)) /\
    filter index_vlr (file_vlrs G) = map vlr_norm N /\
    (forall i, 0 <= i < f_npts F -> file_record G i = file_record F i) /\
    forall sv2 xml2 doy2 year2 bx by_ bz, meets F bx by_ bz ->
      exists ids, query_index sv2 xml2 doy2 year2 G None bx by_ bz = Ok (Some ids) /\ answers F bx by_ bz ids.
Proof.
  intros (CV & HN). pose proof (no_index_all _ HN) as NI. destruct (crs_split _ NI) as (NP & NT).
  destruct (make_core sv xml doy year pm force false F ix_new false CV) as (h & vs & G & EB & SD & EM & EP & _ & EV & SG & ER).
  { intros r _ _ Hv. split; [exact (indexable_find F pm (r_hdr r) (conj CV HN) Hv)|discriminate]. }
  exists G, (head_vlr h :: vs). split; [exact EM|].
  split. { unfold grown_block. cbn [List.length]. replace (u_at F 100 4 + Z.of_nat (S (length vs))) with (u_at F 100 4 + 1 + lenB vs) by lia. exact EP. }
  rewrite EV. unfold grown, geo_last. split.
  { rewrite !map_app, !filter_app, (filter_index_none _ NP), (filter_index_none _ NT), (filter_index_all _ (index_parts _ _ _ _ SD)). reflexivity. }
  split.
  { assert (Z1 : forall l, forallb not_index l = true -> filter index_vlr (map vlr_norm l) = []).
    { induction l as [|v l IH]; intros H; [reflexivity|]. cbn [forallb map filter] in *. apply andb_true_iff in H. destruct H as (H1 & H2). rewrite index_vlr_norm. rewrite index_vlr_not in H1. destruct (index_vlr v); [discriminate|]. exact (IH H2). }
    assert (Z2 : forall l, Forall (fun v => index_vlr v = true) l -> filter index_vlr (map vlr_norm l) = map vlr_norm l).
    { induction 1 as [|v l H HF IH]; [reflexivity|]. cbn [map filter]. rewrite index_vlr_norm, H. f_equal. exact IH. }
    rewrite !map_app, !filter_app, (Z1 _ NP), (Z1 _ NT), (Z2 _ (index_parts _ _ _ _ SD)), app_nil_r. reflexivity. }
  split; [exact (ER eq_refl)|]. intros sv2 xml2 doy2 year2 bx by_ bz HM.
  destruct (pub_counts F G _ _ _ EP) as (P1 & P2 & P3 & P4 & P5). destruct (same_ranges F G P4 P5) as (RX & RY & RZ).
  apply (query_core sv2 xml2 doy2 year2 F pm h vs G None _ _ bx by_ bz CV EB SD SG (same_coords F G SG (ER eq_refl) P1 P2 P3) P1 RX RY RZ EV NP NT HM).
Qed.

(** An index built into a file of its own: no records in it, and together with the
    point file it answers every query box that meets the file. *)
Theorem C56_alone_partial sv xml doy year pm force F : indexable F pm ->
  exists G N, make_index sv xml doy year pm force true F = Ok (true, Some G) /\
    grown_block F G N 0 /\
    forall sv2 xml2 doy2 year2 bx by_ bz, meets F bx by_ bz ->
      exists ids, query_index sv2 xml2 doy2 year2 F (Some G) bx by_ bz = Ok (Some ids) /\ answers F bx by_ bz ids.
Proof.
  intros (CV & HN). pose proof (no_index_all _ HN) as NI. destruct (crs_split _ NI) as (NP & NT).
  destruct (make_core sv xml doy year pm force true F ix_new false CV) as (h & vs & G & EB & SD & EM & EP & _ & EV & SG & _).
  { intros r _ _ Hv. split; [exact (indexable_find F pm (r_hdr r) (conj CV HN) Hv)|discriminate]. }
  exists G, (head_vlr h :: vs). split; [exact EM|].
  split. { unfold grown_block. cbn [List.length]. replace (u_at F 100 4 + Z.of_nat (S (length vs))) with (u_at F 100 4 + 1 + lenB vs) by lia. exact EP. }
  intros sv2 xml2 doy2 year2 bx by_ bz HM.
  apply (query_core sv2 xml2 doy2 year2 F pm h vs F (Some G) _ _ bx by_ bz CV EB SD (cv_file _ _ CV) eq_refl eq_refl eq_refl eq_refl eq_refl (conj SG EV) NP NT HM).
Qed.

(** ** Building a second time *)
Lemma clear_runs_out n : forall i l ix, forallb (fun v => negb (is_index_head v)) l = true -> 0 <= i -> lenB l < i + Z.of_nat n -> (0 < n)%nat -> clear_loop n i l ix = UB UBOutOfBounds.
Proof.
  induction n as [|n IH]; intros i l ix H Hi HL Hn; [lia|]. cbn [clear_loop]. destruct (nth_error l (Z.to_nat i)) as [v|] eqn:E; [|reflexivity].
  assert (L : (Z.to_nat i < length l)%nat) by (apply nth_error_Some; congruence). assert (N1 : (0 < n)%nat) by lia.
  pose proof (proj1 (forallb_forall _ _) H v (nth_error_In _ _ E)) as HV. cbv beta in HV. unfold is_index_head in HV.
  assert (D : forallb (fun v => negb (is_index_head v)) (firstn (Z.to_nat i) l ++ skipn (S (Z.to_nat i)) l) = true).
  { rewrite forallb_forall in H. apply forallb_forall. intros w Hw. apply H. apply in_app_iff in Hw. rewrite <- (firstn_skipn (Z.to_nat i) l). apply in_app_iff. destruct Hw as [Hw|Hw]; [now left|right].
    rewrite <- (firstn_skipn 1 (skipn (Z.to_nat i) l)), skipn_skipn. apply in_app_iff. right. exact Hw. }
  assert (DL : lenB (firstn (Z.to_nat i) l ++ skipn (S (Z.to_nat i)) l) < i + 1 + Z.of_nat n) by (rewrite app_length, firstn_length, skipn_length; lia).
  destruct (zlist_eqb (vlr_get_user false v) liblas_user); cbn [andb negb] in HV; [|apply IH; auto; lia].
  destruct (v_id v =? 42); [discriminate|]. destruct (v_id v =? ih_data (ix_h ix)); apply IH; auto; lia.
Qed.
Lemma clear_old_fails pre : forall k i h rest ix full, full = k ++ map vlr_norm (pre ++ head_vlr h :: rest) -> i = lenB k -> ihead_ok h -> ih_data (ix_h ix) = 43 ->
  forallb not_index pre = true -> forallb (fun v => negb (is_index_head v)) k = true -> forallb (fun v => negb (is_index_head v)) rest = true -> rest <> [] ->
  clear_loop (length (pre ++ head_vlr h :: rest)) i full ix = UB UBOutOfBounds.
Proof.
  induction pre as [|v pre IH]; intros k i h rest ix full -> -> HO HD HP HK HR HN; cbn [app map List.length clear_loop].
  - rewrite Nat2Z.id, nth_error_app2, Nat.sub_diag by lia. cbn [nth_error].
    assert (U : zlist_eqb (vlr_get_user false (vlr_norm (head_vlr h))) liblas_user = true) by reflexivity. rewrite U. change (v_id (vlr_norm (head_vlr h)) =? 42) with true. cbn iota.
    rewrite norm_load, load_ok by exact HO. cbn [obind]. apply clear_runs_out.
    + rewrite firstn_app, Nat.sub_diag, firstn_all, app_nil_r. replace (skipn (S (length k)) (k ++ vlr_norm (head_vlr h) :: map vlr_norm rest)) with (map vlr_norm rest).
      * rewrite forallb_app, HK. cbn [andb]. rewrite forallb_forall in HR. apply forallb_forall. intros w Hw. apply in_map_iff in Hw. destruct Hw as (u & <- & Hu). specialize (HR u Hu).
        unfold is_index_head in *. destruct (norm_same u) as (-> & -> & _). exact HR.
      * change (S (length k)) with (1 + length k)%nat. rewrite <- skipn_skipn, skipn_app, skipn_all, Nat.sub_diag. reflexivity.
    + lia.
    + rewrite app_length, firstn_length, skipn_length, !app_length. cbn [List.length]. rewrite map_length. lia.
    + destruct rest; [contradiction|cbn [List.length]; lia].
  - rewrite Nat2Z.id, nth_error_app2, Nat.sub_diag by lia. cbn [nth_error]. cbn [forallb] in HP. apply andb_true_iff in HP. destruct HP as (H1 & H2).
    assert (N : clear_loop (length (pre ++ head_vlr h :: rest)) (lenB k + 1) (k ++ vlr_norm v :: map vlr_norm (pre ++ head_vlr h :: rest)) ix = UB UBOutOfBounds).
    { apply (IH (k ++ [vlr_norm v]) _ h rest ix); auto.
      - rewrite <- app_assoc. reflexivity.
      - rewrite app_length. cbn [List.length]. lia.
      - rewrite forallb_app, HK. cbn [forallb andb]. pose proof (head_not_index v H1) as X. unfold is_index_head in *. destruct (norm_same v) as (-> & -> & _). now rewrite X. }
    destruct (norm_same v) as (-> & -> & _). unfold not_index in H1. rewrite HD. destruct (zlist_eqb _ _); [|exact N]. cbn [andb] in H1. destruct (v_id v =? 42); [discriminate|]. destruct (v_id v =? 43); [discriminate|exact N].
Qed.

(** Asking for a new index of a file that already holds one (any file this library
    has put an index in, with at least one point): the list of VLRs is read past its
    end. *)
Theorem C56_reindex_refuted sv xml doy year pm force F sv2 xml2 doy2 year2 pm2 alone2 : indexable F pm -> 0 < f_npts F ->
  exists G, make_index sv xml doy year pm force false F = Ok (true, Some G) /\
    make_index sv2 xml2 doy2 year2 pm2 true alone2 G = UB UBOutOfBounds.
Proof.
  intros (CV & HN) NZ. pose proof (no_index_all _ HN) as NI. destruct (crs_split _ NI) as (NP & NT).
  destruct (make_core sv xml doy year pm force false F ix_new false CV) as (h & vs & G & EB & SD & EM & EP & _ & EV & SG & ER).
  { intros r _ _ Hv. split; [exact (indexable_find F pm (r_hdr r) (conj CV HN) Hv)|discriminate]. }
  exists G. split; [exact EM|]. destruct SG as (HAG & HPG). destruct (plain_header xml2 doy2 year2 G HPG) as (r & E & Hsh & _ & Hv & _).
  unfold make_index. rewrite E. cbn [obind]. unfold index_init. cbn iota.
  assert (NV : h_nvlr (r_hdr r) = Z.of_nat (length (file_vlrs G))) by (destruct (file_vlrs_facts G (proj1 HAG)) as (_ & V2 & _); rewrite V2; exact (f_equal ph_nvlr (proj1 Hsh))).
  rewrite Hv, NV, Nat2Z.id. rewrite EV at 2. unfold grown. cbn [app].
  rewrite find_first; [|exact NP|exact (st_head _ _ _ _ SD)|rewrite EV; unfold grown; rewrite map_length, app_length; cbn [List.length app]; lia].
  cbn [obind]. unfold clear_old. rewrite Hv, NV, Nat2Z.id, EV, map_length. unfold grown. cbn [app].
  rewrite (clear_old_fails (filter (fun v => negb (is_crs v)) (file_vlrs F)) [] 0 h (vs ++ filter is_crs (file_vlrs F)) (idx_of h) (map vlr_norm (filter (fun v => negb (is_crs v)) (file_vlrs F) ++ head_vlr h :: vs ++ filter is_crs (file_vlrs F))) eq_refl eq_refl (st_head _ _ _ _ SD)).
  - reflexivity.
  - exact (st_data _ _ _ _ SD).
  - exact NP.
  - reflexivity.
  - rewrite forallb_app. apply andb_true_iff. split; apply forallb_forall; intros v Hv0.
    + pose proof (st_kind _ _ _ _ SD) as K. rewrite Forall_forall in K. destruct (K v Hv0) as (n & d & ->). reflexivity.
    + rewrite (head_not_index v); [reflexivity|]. rewrite forallb_forall in NT. now apply NT.
  - assert (V : vs <> []). { apply (st_some _ _ _ _ SD). intros X. pose proof (file_coords_length F) as L. rewrite X in L. cbn [List.length] in L. lia. }
    destruct vs; [contradiction|discriminate].
Qed.

Lemma find_at a v b ix ix' y n : forallb not_index a = true -> is_index_head v = true -> load_index_vlr ix v = Ok (ix', y) -> (length a < n)%nat -> find_index n (a ++ v :: b) ix = Ok (ix', true).
Proof.
  revert n. induction a as [|w a IH]; intros n H HO E Hn; destruct n as [|n]; try (cbn [List.length] in Hn; lia); cbn [app find_index].
  - rewrite HO, E. reflexivity.
  - cbn [forallb] in H. apply andb_true_iff in H. destruct H as (H1 & H2). rewrite head_not_index by exact H1. apply IH; auto. cbn [List.length] in Hn. lia.
Qed.
(** A file whose index is out of date (another number of points) and a build that is
    not forced: the new index goes behind the old one, which is the one found when
    the file is opened again, so the new index is never used. *)
Theorem C56_stale_refuted sv xml doy year pm F h0 pre rest : covered F pm -> file_vlrs F = map vlr_norm (pre ++ head_vlr h0 :: rest) ->
  forallb not_index pre = true -> ihead_ok h0 -> ih_count h0 <> f_npts F ->
  exists G, make_index sv xml doy year pm false false F = Ok (true, Some G) /\
    forall sv2 xml2 doy2 year2 bx by_ bz, query_index sv2 xml2 doy2 year2 G None bx by_ bz = Ok None.
Proof.
  intros CV EL HP HO HC.
  assert (V : forall hd n, h_npts hd = n -> n <> ih_count h0 -> validate hd (idx_of h0) = Ok false).
  { intros hd n E1 E2. unfold validate. cbn [ix_h idx_of]. unfold index_bounds, header_ranges. cbn [bounds_equal].
    repeat (match goal with |- context [range_equal ?a ?b] => destruct (range_equal a b); cbn [andb negb obind] end);
      rewrite ?E1; replace (n =? ih_count h0) with false by lia; reflexivity. }
  destruct (make_core sv xml doy year pm false false F (idx_of h0) true CV) as (h & vs & G & EB & SD & EM & EP & _ & EV & SG & ER).
  { intros r _ Hsh Hv. split.
    - rewrite EL. apply find_first; [exact HP|exact HO|]. rewrite map_length, app_length. cbn [List.length]. lia.
    - intros _. split; [reflexivity|]. apply (V _ (f_npts F)); [exact (shows_npts F _ Hsh)|congruence]. }
  exists G. split; [exact EM|]. intros sv2 xml2 doy2 year2 bx by_ bz. destruct SG as (HAG & HPG). destruct (plain_header xml2 doy2 year2 G HPG) as (r & E & Hsh & _ & Hv & _).
  unfold query_index. rewrite E. cbn [obind]. unfold index_init. cbn iota.
  assert (NV : h_nvlr (r_hdr r) = Z.of_nat (length (file_vlrs G))) by (destruct (file_vlrs_facts G (proj1 HAG)) as (_ & V2 & _); rewrite V2; exact (f_equal ph_nvlr (proj1 Hsh))).
  rewrite Hv, NV, Nat2Z.id.
  assert (FI : find_index (length (file_vlrs G)) (file_vlrs G) ix_new = Ok (idx_of h0, true)).
  { rewrite EV. unfold grown. rewrite EL. rewrite !map_app, filter_app, map_app, <- app_assoc. cbn [map filter].
    change (is_crs (vlr_norm (head_vlr h0))) with false. cbn [negb map app].
    eapply find_at; [|reflexivity|rewrite !norm_load, load_ok by exact HO; reflexivity|rewrite !app_length; cbn [List.length]; lia].
    apply forallb_forall. intros v Hi. apply in_map_iff in Hi. destruct Hi as (w & <- & Hi). apply filter_In in Hi. destruct Hi as (Hi & _). apply in_map_iff in Hi. destruct Hi as (u & <- & Hi).
    rewrite index_vlr_not, !index_vlr_norm, <- index_vlr_not. rewrite forallb_forall in HP. now apply HP. }
  rewrite FI. cbn [obind]. destruct (pub_counts F G _ _ _ EP) as (P1 & _).
  rewrite (V (r_hdr r) (f_npts F)); [|rewrite (shows_npts G _ Hsh); exact P1|congruence]. reflexivity.
Qed.

(** ** Files that meet the hypotheses *)
Definition le8 (b : Z) : list Z := le_enc 8 b.
(** three points (1,1,0), (5,5,4), (9,9,8) in a box 0..10, 0..10, 0..8 *)
Definition spot (x y z : Z) : list Z := le_enc 4 x ++ le_enc 4 y ++ le_enc 4 z ++ repeat 0 8.
Definition boxed_file (nvlr : Z) (vl : list Z) : list Z :=
  str "LASF" ++ [0;0;0;0] ++ sample_guid ++ [1; 2] ++ repeat 0 64 ++ [1;0;220;7] ++ le_enc 2 227 ++ le_enc 4 (227 + Z.of_nat (length vl)) ++ le_enc 4 nvlr ++
  [0] ++ le_enc 2 20 ++ le_enc 4 3 ++ repeat 0 20 ++
  f64_one_bytes ++ f64_one_bytes ++ f64_one_bytes ++ repeat 0 24 ++
  le8 (f64_bits (fz 10)) ++ le8 0 ++ le8 (f64_bits (fz 10)) ++ le8 0 ++ le8 (f64_bits (fz 8)) ++ le8 0 ++
  vl ++ spot 1 1 0 ++ spot 5 5 4 ++ spot 9 9 8.
Definition boxed : list Z := boxed_file 0 [].
Definition plain_params : params := mkParams [76] [] [50] f64_zero 0.
(** the header of an index of seven points *)
Definition old_head : ihead := mkIHead 1 2 [] [] [] f64_zero (fz 10) f64_zero (fz 10) f64_zero (fz 8) 43 7 1 1 0.
Definition stale : list Z := boxed_file 1 (vlr_image (head_vlr old_head)).

Lemma real_bits F o n : u_at F o 8 = f64_bits (fz n) -> real_at F o = fz n.
Proof. intros E. unfold real_at. rewrite E. symmetry. now apply f64_of_bits_bits. Qed.
Lemma same_bits x y : f64_bits x = f64_bits y -> x = y.
Proof. intros E. rewrite (f64_of_bits_bits x _ E). symmetry. now apply f64_of_bits_bits. Qed.
Lemma small_spread j pts : lenB pts <= 13000 -> spread j pts.
Proof.
  intros H g ps k _ E _. pose proof (ids_length k ps) as L.
  assert (LP : length ps = length pts). { clear -E. revert ps E. induction pts as [|p pts IH]; intros ps E; cbn [identify_all] in E; [apply Writer_Append.Ok_inj in E; now subst|].
    destruct (identify_cell g p); try discriminate. cbn [obind] in E. destruct (identify_all g pts) as [m| | ]; try discriminate. cbn [obind] in E. apply Writer_Append.Ok_inj in E. subst ps. cbn [List.length]. f_equal. now apply IH. }
  lia.
Qed.
Lemma boxed_covered F : F = boxed \/ F = stale -> covered F plain_params.
Proof.
  intros HF.
  assert (ST : standard F /\ gap F = 0 /\ Z.of_nat (file_vlrs_end F) < 2 ^ 29).
  { destruct HF as [->| ->];
    (split; [split; [split; [apply las_fileb_ok; vm_compute; reflexivity|]; split; [apply no_schema_vlrb; vm_compute; reflexivity|];
           split; [repeat apply Forall_cons; try apply Forall_nil; vm_compute; reflexivity|];
           split; [vm_compute; reflexivity|intros _; vm_compute; discriminate]
          |split; [apply las_fileb_ok; vm_compute; reflexivity|]; split; [apply no_schema_vlrb; vm_compute; reflexivity|];
           split; [vm_compute; reflexivity|]; split; [apply (forallb_Forall (fun v => negb (has_id "laszip encoded" 22204 v))); [intros v; cbv beta; now rewrite negb_true_iff|vm_compute; reflexivity]|];
           split; [vm_compute; discriminate|split; vm_compute; reflexivity]]|split; vm_compute; reflexivity]). }
  destruct ST as (ST & GP & RM).
  assert (N3 : f_npts F = 3) by (destruct HF as [->| ->]; vm_compute; reflexivity).
  assert (EX : file_x F = span 0 10) by (unfold file_x, span; f_equal; apply real_bits; destruct HF as [->| ->]; vm_compute; reflexivity).
  assert (EY : file_y F = span 0 10) by (unfold file_y, span; f_equal; apply real_bits; destruct HF as [->| ->]; vm_compute; reflexivity).
  assert (EZ : file_z F = span 0 8) by (unfold file_z, span; f_equal; apply real_bits; destruct HF as [->| ->]; vm_compute; reflexivity).
  assert (EC : file_coords F = sample_pts).
  { unfold file_coords. rewrite N3. change (zseq 0 (Z.to_nat 3)) with [0; 1; 2]. cbn [map]. unfold sample_pts, file_point, pt.
    f_equal; [|f_equal; [|f_equal]]; (apply f_equal2; [apply f_equal2|]); apply same_bits; destruct HF as [->| ->]; vm_compute; reflexivity. }
  constructor; rewrite ?EX, ?EY, ?EZ, ?EC, ?N3, ?GP; auto; try lia; try (apply span_wide; lia); try (apply wide_flat, span_wide; lia).
  - unfold sample_pts. repeat apply Forall_cons; [apply sample_inside; lia|apply sample_inside; lia|apply sample_inside; lia|constructor].
  - split; [unfold no_nul; cbn; lia|]. split; [apply bytes_okb_ok; reflexivity|cbn [plain_params pm_author List.length]; lia].
  - split; [unfold no_nul; cbn; lia|]. split; [apply bytes_okb_ok; reflexivity|cbn [plain_params pm_comment List.length]; lia].
  - split; [unfold no_nul; cbn; lia|]. split; [apply bytes_okb_ok; reflexivity|cbn [plain_params pm_date List.length]; lia].
  - apply small_spread. unfold sample_pts. cbn [List.length]. lia.
Qed.
Example C56_meets : indexable boxed plain_params /\ f_npts boxed = 3 /\ meets boxed (span 0 6) (span 0 6) (span 0 8).
Proof.
  pose proof (boxed_covered boxed (or_introl eq_refl)) as C. split; [split; [exact C|]|].
  - vm_compute. apply Forall_nil.
  - split; [vm_compute; reflexivity|].
    assert (EX : file_x boxed = span 0 10) by (unfold file_x, span; f_equal; apply real_bits; vm_compute; reflexivity).
    assert (EY : file_y boxed = span 0 10) by (unfold file_y, span; f_equal; apply real_bits; vm_compute; reflexivity).
    assert (EZ : file_z boxed = span 0 8) by (unfold file_z, span; f_equal; apply real_bits; vm_compute; reflexivity).
    unfold meets. rewrite EX, EY, EZ. unfold touches, span, fz. cbn [rg_min rg_max].
    destruct (of_Z_ok 0 ltac:(lia)) as (Z1 & Z2). destruct (of_Z_ok 6 ltac:(lia)) as (S1 & S2). destruct (of_Z_ok 10 ltac:(lia)) as (T1 & T2). destruct (of_Z_ok 8 ltac:(lia)) as (F1 & F2).
    rewrite Z1, Z2, S1, S2, T2, F1, F2. split; [|split]; (split; [reflexivity|split; [reflexivity|lra]]).
Qed.
Example C56_stale_meets : covered stale plain_params /\ file_vlrs stale = map vlr_norm ([] ++ head_vlr old_head :: []) /\ ihead_ok old_head /\ ih_count old_head <> f_npts stale.
Proof.
  split; [exact (boxed_covered stale (or_intror eq_refl))|]. split; [vm_compute; reflexivity|]. split.
  - constructor; cbn [old_head ih_major ih_minor ih_author ih_comment ih_date ih_data ih_count ih_cx ih_cy ih_cz]; try lia; (split; [unfold no_nul; cbn; tauto|cbn [List.length]; lia]).
  - vm_compute. discriminate.
Qed.
Print Assumptions C56_embedded_partial.
Print Assumptions C56_alone_partial.
Print Assumptions C56_reindex_refuted.
Print Assumptions C56_stale_refuted.

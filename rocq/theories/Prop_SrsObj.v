(** C79: a spatial reference keeps what it is given, in memory and in the file.
    [geo_record] and [kept_in_order] are in Prop_Srs.v. *)
From Coq Require Import ZArith List Bool Lia String.
Import ListNotations.
From Verif Require Import Outcome Bytes Float64 CStr Vlr_Model Schema_Model Header_Model Point_Model Stream_Model Stream_Proofs Writer_Model Writer_Api Writer_Append
  IO_Spec Reader_Model Reader_Spec Reader_Open Reader_Api Reader_Hist Reader_Vlrs Writer_File Writer_RT IO_Round IO_Extra IO_Samples Rewrite_Proofs Prop_Srs Srs_Model.
Local Open Scope Z_scope.
Local Notation length := List.length (only parsing).

Definition reachable (s : sref) : Prop := exists os, s = sops_run sref_new os.
Definition all_geo (s : sref) : Prop := Forall geo_record (s_vlrs s).

Lemma filter_geo l : Forall geo_record (filter is_geo_vlr l).
Proof. apply Forall_forall. intros v H. apply filter_In in H as (_ & H). now apply is_geo_spec. Qed.
Lemma wkt_record_of w v : wkt_record w = Ok v ->
  until_nul (v_user v) = str "liblas" /\ v_id v = 2112 /\ v_data v = until_nul w ++ [0] /\ v_size v = Z.of_nat (length (v_data v)).
Proof.
  unfold wkt_record. cbv zeta. destruct (vlr_set_user (vlr_set_id vlr_new 2112) (str "liblas")) as [a| |] eqn:A; try discriminate. cbn [obind].
  destruct (vlr_set_desc a (str "OGR variant of OpenGIS WKT SRS")) as [b| |] eqn:B; try discriminate. cbn [obind].
  destruct (65535 <? Z.of_nat (length (until_nul w ++ [0]))) eqn:L; try discriminate. intros E. apply Ok_inj in E. subst v. apply Z.ltb_ge in L.
  assert (UA : until_nul (v_user b) = str "liblas" /\ v_id b = 2112).
  { vm_compute in A. apply Ok_inj in A. subst a. vm_compute in B. apply Ok_inj in B. subst b. split; vm_compute; reflexivity. }
  unfold vlr_set_data, vlr_set_size. cbn [v_user v_id v_data v_size]. split; [exact (proj1 UA)|]. split; [exact (proj2 UA)|]. split; [reflexivity|]. apply Z.mod_small. lia.
Qed.
Lemma reset_geo s : all_geo (fst (sref_reset s)).
Proof.
  unfold sref_reset, all_geo. destruct (s_wkt s) as [|c w]; [constructor|]. destruct (wkt_record (c :: w)) as [v| |] eqn:E; cbn [fst s_vlrs]; [|constructor|constructor].
  destruct (wkt_record_of _ _ E) as (U & I & _). constructor; [right; auto|constructor].
Qed.
Lemma run_geo s o : all_geo s -> all_geo (fst (sop_run s o)).
Proof.
  intros H. destruct o as [l|v|k| |w|p| |t|t]; cbn [sop_run fst].
  - apply filter_geo.
  - unfold sref_add_vlr. destruct (is_geo_vlr v) eqn:E; [|exact H]. apply Forall_app. split; [exact H|]. constructor; [now apply is_geo_spec|constructor].
  - unfold all_geo, sref_clear. cbn [s_vlrs]. apply Forall_forall. intros v Hv. apply filter_In in Hv as (Hv & _). unfold all_geo in H. rewrite Forall_forall in H. auto.
  - apply reset_geo.
  - apply reset_geo.
  - unfold sref_set_proj4. pose proof (reset_geo s) as R. destruct (sref_reset s) as (s1 & [u| |]); [apply reset_geo|exact R|exact R].
  - exact H.
  - exact H.
  - apply filter_geo.
Qed.
Lemma runs_geo os : forall s, all_geo s -> all_geo (sops_run s os).
Proof. induction os as [|o os IH]; intros s H; [exact H|]. cbn [sops_run fold_left]. apply IH. now apply run_geo. Qed.

(** Whatever is done to it, it holds georeferencing records only. *)
Theorem C79_only_geo : forall s, reachable s -> Forall geo_record (sref_get_vlrs s).
Proof. intros s (os & ->). apply runs_geo. constructor. Qed.
Print Assumptions C79_only_geo.

(** ClearVLRs takes away exactly the records of one kind. *)
Theorem C79_clear : forall s, reachable s ->
  kept_in_order (fun v => until_nul (v_user v) <> str "LASF_Projection") (sref_get_vlrs s) (sref_get_vlrs (sref_clear eGeoTIFF s)) /\
  sref_get_wkt (sref_clear eGeoTIFF s) = sref_get_wkt s /\
  kept_in_order (fun v => until_nul (v_user v) <> str "liblas") (sref_get_vlrs s) (sref_get_vlrs (sref_clear eOGRWKT s)) /\
  sref_get_wkt (sref_clear eOGRWKT s) = [].
Proof.
  intros s R. pose proof (C79_only_geo s R) as G. unfold sref_get_vlrs, sref_clear in *. cbn [s_vlrs].
  assert (D : str "LASF_Projection" <> str "liblas") by (intros X; vm_compute in X; discriminate).
  assert (K : forall (P : vlr -> Prop) f l, Forall geo_record l -> (forall v, geo_record v -> (f v = true <-> P v)) -> kept_in_order P l (filter f l)).
  { intros P f l H Hf. induction H as [|v l Hv _ IH]; [constructor|]. cbn [filter]. destruct (f v) eqn:E.
    - apply kio_keep; [now apply Hf|exact IH].
    - apply kio_drop; [|exact IH]. intros X. apply (Hf v Hv) in X. congruence. }
  split; [|split; [reflexivity|split; [|reflexivity]]].
  - apply K; [exact G|]. intros v Hv. rewrite negb_true_iff. cbn [wiped]. destruct Hv as [(U & I)|(U & I)].
    + split; [|congruence]. intros X. exfalso. rewrite !orb_false_iff, !Z.eqb_neq in X. tauto.
    + split; [congruence|]. intros _. rewrite I. reflexivity.
  - apply K; [exact G|]. intros v Hv. rewrite negb_true_iff. cbn [wiped]. rewrite user_text, andb_false_iff, Z.eqb_neq. destruct Hv as [(U & I)|(U & I)].
    + rewrite U. split; [congruence|]. intros _. left. destruct I as [I|[I|I]]; rewrite I; discriminate.
    + rewrite U, I. split; [|congruence]. intros [X|X]; [congruence|]. vm_compute in X. discriminate.
Qed.
Print Assumptions C79_clear.

Lemma wkt_record_ok w : Z.of_nat (length (until_nul w)) <= 65534 -> exists v, wkt_record w = Ok v.
Proof.
  intros L. unfold wkt_record. cbv zeta. rewrite app_length. cbn [List.length]. replace (65535 <? Z.of_nat (length (until_nul w) + 1)) with false by (symmetry; apply Z.ltb_ge; lia).
  destruct (vlr_set_user (vlr_set_id vlr_new 2112) (str "liblas")) as [a| |] eqn:A; [|vm_compute in A; discriminate|vm_compute in A; discriminate].
  vm_compute in A. apply Ok_inj in A. subst a. cbn [obind]. match goal with |- context [vlr_set_desc ?a ?t] => destruct (vlr_set_desc a t) as [b| |] eqn:B; [|vm_compute in B; discriminate|vm_compute in B; discriminate] end.
  cbn [obind]. eauto.
Qed.
(** A text that is set can be got back, and stands in one record. *)
Theorem C79_wkt : forall s w, no_nul w -> w <> [] -> Z.of_nat (length w) <= 65534 ->
  exists s', sref_set_wkt s w = (s', Ok tt) /\ sref_get_wkt s' = w /\
  exists v, sref_get_vlrs s' = [v] /\ until_nul (v_user v) = str "liblas" /\ v_id v = 2112 /\ v_data v = w ++ [0] /\ v_size v = Z.of_nat (length w) + 1.
Proof.
  intros s w N NE L. destruct (wkt_record_ok w) as (v & E); [now rewrite until_nul_id|]. unfold sref_set_wkt, sref_reset. cbn [s_wkt].
  destruct w as [|c w]; [congruence|]. rewrite E. eexists. split; [reflexivity|]. split; [reflexivity|]. exists v. split; [reflexivity|].
  destruct (wkt_record_of _ _ E) as (U & I & D & S). rewrite until_nul_id in D by exact N. rewrite D, app_length in S. cbn [List.length] in S |- *. repeat (split; [assumption|]). lia.
Qed.
Print Assumptions C79_wkt.
(** Copies are equal. *)
Theorem C79_copy : forall s t, reachable t -> sref_get_vlrs (sref_assign s t) = sref_get_vlrs t /\ sref_get_wkt (sref_assign s t) = sref_get_wkt t.
Proof.
  intros s t R. split; [|reflexivity]. pose proof (C79_only_geo t R) as G. unfold sref_get_vlrs, sref_assign in *. cbn [s_vlrs].
  induction G as [|v l Hv _ IH]; [reflexivity|]. cbn [filter]. rewrite (proj2 (is_geo_spec v) Hv). now rewrite IH.
Qed.
Print Assumptions C79_copy.

(** The records reach the file and come back with it (descriptions and user ids cut
    at the first NUL). *)
Lemma not_custom sv h : no_schema_written sv h -> fresh_ok sv h -> is_custom (h_schema h) = false.
Proof.
  intros N (_ & _ & _ & C & _). destruct (is_custom (h_schema h)) eqn:E; [|reflexivity]. destruct (C eq_refl) as (_ & X). unfold no_schema_written, written_vlrs in N. rewrite E in N.
  apply Forall_app in N as (_ & N). apply Forall_app in N as (_ & N). apply Forall_inv in N. cbv beta in N. congruence.
Qed.
Lemma filter_crs_no {A} (f : A -> bool) g l : (forall a, In a l -> f a = true -> g a = false) -> filter g (filter f l) = [].
Proof.
  induction l as [|a l IH]; intros H; [reflexivity|]. cbn [filter]. destruct (f a) eqn:E; [cbn [filter]; rewrite (H a (or_introl eq_refl) E)|]; apply IH; intros b Hb; apply H; now right.
Qed.
Theorem C79_written : forall sv xml doy year h ps s, reachable s -> session_ok sv (header_set_srs h s) ps ->
  exists F r, write_file sv (header_set_srs h s) ps = Ok F /\ reader_open xml doy year F = Ok r /\
    sref_get_vlrs (sref_of_vlrs (h_vlrs (r_hdr r))) = map vlr_norm (sref_get_vlrs s) /\ h_srs (r_hdr r) = map vlr_norm (sref_get_vlrs s).
Proof.
  intros sv xml doy year h ps s R HS. destruct (reopen sv xml doy year _ ps HS) as (EW & _ & _ & _ & r & ER & Hi & _ & _ & _ & EV & _).
  exists (file_image sv (header_set_srs h s) ps), r. split; [exact EW|]. split; [exact ER|].
  assert (SR : h_srs (r_hdr r) = filter is_geo_vlr (h_vlrs (r_hdr r))) by (destruct Hi as ((_ & _ & _ & _ & X & _) & _); exact X).
  rewrite SR. unfold sref_of_vlrs, sref_set_vlrs, sref_get_vlrs. cbn [s_vlrs]. rewrite EV.
  destruct (session_parts sv _ ps HS) as (HF & HL & HN & _). pose proof (not_custom _ _ HN HF) as NC.
  assert (FM : forall l, filter is_geo_vlr (map vlr_norm l) = map vlr_norm (filter is_crs l)).
  { induction l as [|v l IH]; [reflexivity|]. cbn [map filter]. rewrite geo_crs. unfold is_crs at 1. rewrite !has_id_norm. fold (is_crs v). destruct (is_crs v); cbn [map]; now rewrite IH. }
  rewrite FM. assert (W : filter is_crs (written_vlrs sv (header_set_srs h s)) = s_vlrs s); [|rewrite W; split; reflexivity].
  unfold written_vlrs. rewrite NC, app_nil_r, filter_app.
  assert (X : h_srs (header_set_srs h s) = s_vlrs s) by (exact (proj1 (C79_copy s s R))). rewrite X.
  rewrite filter_crs_no by (intros v _ K; apply andb_prop in K as (K & _); apply andb_prop in K as (K & _); now destruct (is_crs v)). cbn [app].
  pose proof (C79_only_geo s R) as G. unfold sref_get_vlrs in G. clear -G. induction G as [|v l Hv _ IH]; [reflexivity|]. cbn [filter]. rewrite <- geo_crs, (proj2 (is_geo_spec v) Hv). now rewrite IH.
Qed.
Print Assumptions C79_written.

(** But the text does not come back: a reference made from the records of a file
    has none, even if the records hold one, and the next SetProj4 takes away what
    there was. *)
Theorem C79_wkt_lost_refuted : forall l p, sref_get_wkt (sref_of_vlrs l) = [] /\
  exists s, sref_set_proj4 (sref_of_vlrs l) p = (s, Ok tt) /\ sref_get_vlrs s = [] /\ sref_get_wkt s = [] /\ sref_get_proj4 s = [].
Proof. intros l p. split; [reflexivity|]. eexists. split; [reflexivity|]. repeat split. Qed.
Print Assumptions C79_wkt_lost_refuted.
(** SetProj4 is accepted, and forgets the records instead of taking the definition. *)
Theorem C79_proj4_refuted : forall s p, sref_get_wkt s = [] -> exists s', sref_set_proj4 s p = (s', Ok tt) /\ sref_get_vlrs s' = [] /\ sref_get_proj4 s' = [].
Proof. intros [l w] p E. cbn in E. subst w. eexists. split; [reflexivity|]. split; reflexivity. Qed.
Print Assumptions C79_proj4_refuted.
(** A text too long for a record is refused, but the object has changed already. *)
Theorem C79_long_wkt_refuted : forall s w, no_nul w -> 65534 < Z.of_nat (length w) ->
  exists s', sref_set_wkt s w = (s', Throw ERuntime) /\ sref_get_wkt s' = w /\ sref_get_vlrs s' = [].
Proof.
  intros s w N L. unfold sref_set_wkt, sref_reset. cbn [s_wkt]. destruct w as [|c w]; [cbn in L; lia|].
  assert (E : wkt_record (c :: w) = Throw ERuntime).
  { unfold wkt_record. cbv zeta. rewrite until_nul_id by exact N. rewrite app_length.
    replace (65535 <? Z.of_nat (length (c :: w) + length [0])) with true by (symmetry; apply Z.ltb_lt; cbn [List.length] in *; lia).
    destruct (vlr_set_user (vlr_set_id vlr_new 2112) (str "liblas")) as [a| |] eqn:A; [|vm_compute in A; discriminate|vm_compute in A; discriminate].
    vm_compute in A. apply Ok_inj in A. subst a. cbn [obind]. match goal with |- context [vlr_set_desc ?a ?t] => destruct (vlr_set_desc a t) as [b| |] eqn:B; [|vm_compute in B; discriminate|vm_compute in B; discriminate] end.
    reflexivity. }
  rewrite E. eexists. split; [reflexivity|]. split; reflexivity.
Qed.
Print Assumptions C79_long_wkt_refuted.
(** New records do not replace the text of the old ones. *)
Theorem C79_stale_wkt_refuted : forall s l, sref_get_wkt (sref_set_vlrs s l) = sref_get_wkt s.
Proof. reflexivity. Qed.
Print Assumptions C79_stale_wkt_refuted.

(** SetVLRs takes exactly the georeferencing records, in their order; AddVLR adds one
    at the end and takes nothing else. *)
Theorem C79_given : forall s l v,
  kept_in_order geo_record l (sref_get_vlrs (sref_set_vlrs s l)) /\
  (geo_record v -> sref_get_vlrs (sref_add_vlr s v) = sref_get_vlrs s ++ [v]) /\ (~ geo_record v -> sref_get_vlrs (sref_add_vlr s v) = sref_get_vlrs s) /\
  sref_get_wkt (sref_add_vlr s v) = sref_get_wkt s.
Proof.
  intros s l v. split.
  - unfold sref_get_vlrs, sref_set_vlrs. cbn [s_vlrs]. induction l as [|a l IH]; [constructor|]. cbn [filter]. destruct (is_geo_vlr a) eqn:E.
    + apply kio_keep; [now apply is_geo_spec|exact IH].
    + apply kio_drop; [|exact IH]. intros X. apply is_geo_spec in X. congruence.
  - unfold sref_get_vlrs, sref_get_wkt, sref_add_vlr. destruct (is_geo_vlr v) eqn:E.
    + apply is_geo_spec in E. split; [reflexivity|]. split; [tauto|reflexivity].
    + split; [intros X; apply is_geo_spec in X; congruence|]. split; reflexivity.
Qed.
Print Assumptions C79_given.
(** Definitions for other libraries are reported as not understood and change nothing;
    a vertical system changes nothing. *)
Theorem C79_not_understood : forall s t, sref_set_user_input s t = (s, Throw ERuntime) /\ sref_set_vertical s = (s, Ok tt).
Proof. split; reflexivity. Qed.
Print Assumptions C79_not_understood.

(** A history that leaves two GeoTIFF records and the WKT record, and a header that
    can be written with them; clearing either kind takes away what it should. *)
Definition keys_vlr (id : Z) (d : list Z) : vlr :=
  mkVlr d (pad_to 32 (str "keys")) (pad_to 16 (str "LASF_Projection")) 0 id (Z.of_nat (length d)).
Definition inst_wkt : list Z := str "GEOGCS[WGS 84]".
Definition inst_ops : list sop :=
  [OSetVlrs [keys_vlr 34735 [9]]; OWkt inst_wkt; OAdd (keys_vlr 34735 [1; 0]); OAdd (keys_vlr 34736 [2]); OAdd (sample_vlr 5 [1; 2; 3]); OVertical; OUser [1]].
Definition inst_ref : sref := sops_run sref_new inst_ops.
Definition ids (s : sref) : list Z := map v_id (sref_get_vlrs s).
Theorem C79_instance : reachable inst_ref /\ session_ok no_sv (header_set_srs (sample_header 2) inst_ref) (sample_points (sample_header 2)) /\
  ids inst_ref = [2112; 34735; 34736] /\ sref_get_wkt inst_ref = inst_wkt /\
  ids (sref_clear eGeoTIFF inst_ref) = [2112] /\ ids (sref_clear eOGRWKT inst_ref) = [34735; 34736] /\ no_nul inst_wkt /\ sref_get_wkt (sref_clear eOGRWKT inst_ref) = [].
Proof.
  split; [exists inst_ops; reflexivity|]. split; [apply session_okb_ok; vm_compute; reflexivity|].
  split; [vm_compute; reflexivity|]. split; [vm_compute; reflexivity|]. split; [vm_compute; reflexivity|]. split; [vm_compute; reflexivity|]. split; [|reflexivity].
  intros X. vm_compute in X. repeat (destruct X as [X|X]; [discriminate|]). exact X.
Qed.
Print Assumptions C79_instance.

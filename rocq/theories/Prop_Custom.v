(** C54: record layouts with fields of the user's own, across writing and reading. *)
From Coq Require Import ZArith List Bool Lia String.
From Coq Require Import ZifyBool ZifyNat.
Import ListNotations.
From Verif Require Import Outcome Bytes Float64 Float64_Proofs CStr Vlr_Model Schema_Model Schema_Spec Schema_Api Schema_Proofs Header_Model Point_Model
  Stream_Model Writer_Model IO_Spec Writer_Api Writer_File Reader_Model Reader_Vlrs Reader_Schema Reader_Open Reader_Spec Reader_Api
  Reader_Hist Writer_RT IO_Round IO_Samples Ptree_Model Ptree_Proofs.
Local Open Scope Z_scope.
Local Notation length := List.length (only parsing).

(** What the writer adds for a schema, given the XML printer: the VLR of GetVLR. *)
Definition sv_of (print : ptree -> list Z) (s : schema) : vlr :=
  match schema_get_vlr print s with Ok v => v | _ => vlr_new end.
(** The schema's text can be parsed again. *)
Definition text_parses (print : ptree -> list Z) (parse : list Z -> outcome ptree) (s : schema) : Prop :=
  parse (print (schema_tree s)) = Ok (schema_tree s).

Lemma sv_of_ok print s : has_id "liblas" 7 (sv_of print s) = true ->
  schema_get_vlr print s = Ok (sv_of print s) /\ v_data (sv_of print s) = print (schema_tree s).
Proof.
  unfold sv_of. intros H. destruct (schema_get_vlr print s) as [v| |] eqn:E; [|discriminate H..].
  split; [reflexivity|]. unfold schema_get_vlr in E.
  change (vlr_set_user vlr_new (str "liblas")) with (Ok (mkVlr (v_data vlr_new) (v_desc vlr_new) (pad_to 16 (str "liblas")) (v_reserved vlr_new) 0 0)) in E.
  cbn [obind] in E. destruct (65535 <? _); [discriminate|]. unfold vlr_set_desc in E.
  destruct (_ <? _)%nat; [discriminate|]. apply (f_equal (fun o => match o with Ok x => v_data x | _ => [] end)) in E.
  cbn [v_data] in E. symmetry. exact E.
Qed.

Lemma crs_not_schema v : is_crs v = true -> has_id "liblas" 7 v = false.
Proof.
  unfold is_crs, has_id. intros H. destruct (Z.eqb_spec (v_id v) 7) as [E|E]; [|apply andb_false_r].
  rewrite E in H. cbn [Z.eqb Pos.eqb] in H. rewrite !andb_false_r in H. discriminate.
Qed.

Lemma find_app_none {A} (f : A -> bool) l m : Forall (fun x => f x = false) l -> find f (l ++ m) = find f m.
Proof. induction 1 as [|x l Hx Hl IH]; cbn [app find]; [reflexivity|]. now rewrite Hx. Qed.

(** the schema VLR that is read back is rejected *)
Lemma custom_falls_back print parse h : fresh_ok (sv_of print) h -> is_custom (h_schema h) = true ->
  text_parses print parse (h_schema h) ->
  falls_back (schema_of_vlr parse) (map vlr_norm (written_vlrs (sv_of print) h)).
Proof.
  intros HF HC HT. pose proof HF as (_ & _ & Hcrs & Hsv & _). destruct (Hsv HC) as (_ & Hid).
  destruct (sv_of_ok print _ Hid) as (_ & HD).
  unfold falls_back, schema_of_vlrs. unfold written_vlrs. rewrite HC. rewrite app_assoc, map_app.
  rewrite find_app_none.
  - cbn [map find]. rewrite is_schema_vlr_id, has_id_norm, Hid. unfold schema_of_vlr.
    change (v_data (vlr_norm (sv_of print (h_schema h)))) with (v_data (sv_of print (h_schema h))). rewrite HD, HT. cbn [obind]. apply own_tree_fails.
  - apply Forall_map. apply Forall_app. split.
    + apply Forall_forall. intros v Hv. apply filter_In in Hv as (_ & Hv). rewrite is_schema_vlr_id, has_id_norm.
      rewrite andb_true_iff in Hv. destruct Hv as (_ & Hv). cbn [andb] in Hv. now rewrite negb_true_iff in Hv.
    + eapply Forall_impl; [|exact Hcrs]. cbv beta. intros v Hv. rewrite is_schema_vlr_id, has_id_norm. now apply crs_not_schema.
Qed.

(** No schema of any shape survives its own serialisation: loading the tree it writes raises std::runtime_error. *)
Theorem C54_own_record_rejected : forall print parse s v, schema_get_vlr print s = Ok v -> text_parses print parse s ->
  schema_of_vlr parse v = Throw ERuntime.
Proof.
  intros print parse s v E HT. assert (H : has_id "liblas" 7 (sv_of print s) = true).
  { unfold sv_of. rewrite E. unfold schema_get_vlr in E.
    change (vlr_set_user vlr_new (str "liblas")) with (Ok (mkVlr (v_data vlr_new) (v_desc vlr_new) (pad_to 16 (str "liblas")) (v_reserved vlr_new) 0 0)) in E.
    cbn [obind] in E. destruct (65535 <? _); [discriminate|]. unfold vlr_set_desc in E.
    destruct (_ <? _)%nat; [discriminate|].
    apply (f_equal (fun o => match o with Ok x => has_id "liblas" 7 x | _ => true end)) in E. cbv beta iota in E. rewrite <- E. reflexivity. }
  destruct (sv_of_ok print s H) as (E2 & D). rewrite E in E2. injection E2 as ->. unfold schema_of_vlr. rewrite D, HT.
  cbn [obind]. apply own_tree_fails.
Qed.
Print Assumptions C54_own_record_rejected.

(** What comes back from a file written with a custom layout: every record, byte for byte, and the header, but the
    layout is that of the point format followed by one field "extra" for the remaining bytes.  [_partial]: the fields of
    the user's own do not come back. *)
Theorem C54_custom_partial : forall print parse doy year h ps m, session_core (sv_of print) h ps -> is_custom (h_schema h) = true ->
  text_parses print parse (h_schema h) ->
  Forall (fun x => f64_fin x = true) [x_of (h_scale h); y_of (h_scale h); z_of (h_scale h); x_of (h_offset h); y_of (h_offset h); z_of (h_offset h)] ->
  let rl := get_record_length h in
  exists F r r', write_file (sv_of print) h ps = Ok F /\ reader_open (schema_of_vlr parse) doy year F = Ok r /\
    pub_of_header (r_hdr r) = expected_pub (sv_of print) h (Z.of_nat (length ps)) (stored_src h) (stored_res h) /\
    schema_shows (h_schema (r_hdr r)) (std_fields (get_format h) ++
      (if std_length (get_format h) =? rl then [] else [mkField "extra" (((rl - std_length (get_format h)) * 8) mod 2 ^ 64) false])) /\
    rops_run (schema_of_vlr parse) r (repeat RNext (length ps + m)) =
      Ok (r', map (fun p => (ATrue, record_of rl p)) ps ++
        repeat (AFalse, last (map (record_of rl) ps) (repeat 0 (Z.to_nat rl))) m).
Proof.
  intros print parse doy year h ps m HS HC HT Hfin rl.
  pose proof (custom_falls_back print parse h (proj1 HS) HC HT) as FB.
  destruct (reopen_x (sv_of print) (schema_of_vlr parse) doy year h ps HS FB) as (EW & LF & _ & _ & r & ER & Hi & _ & EP & _).
  destruct (read_back_x (sv_of print) (schema_of_vlr parse) doy year h ps m HS FB Hfin) as (F' & r2 & r' & EW' & ER' & RB).
  rewrite EW in EW'. injection EW' as <-. rewrite ER in ER'. injection ER' as <-.
  exists (file_image (sv_of print) h ps), r, r'. split; [exact EW|]. split; [exact ER|]. split; [exact EP|]. split; [|exact RB].
  destruct Hi as (SH & _). pose proof SH as (P & _ & _ & _ & _ & Si & Sf).
  pose proof (sinv_shows _ _ _ Si) as X. unfold layout_of, extra_fields in X.
  pose proof (f_equal ph_format P) as PF. pose proof (f_equal ph_reclen P) as PR. rewrite EP in PF, PR.
  cbn [ph_format ph_reclen expected_pub pub_of_file] in PF, PR. rewrite <- PF, <- PR in X. exact X.
Qed.
Print Assumptions C54_custom_partial.

(** ** a session with a field "Amplitude" *)
Definition amp_header : header :=
  h_upd_schema (sample_header 2) (add_dimension (h_schema (sample_header 2)) (user_dim "Amplitude" 16 true false true)).
Definition amp_points : list point := [mkPoint (repeat 17 36) amp_header; mkPoint (repeat 18 36) amp_header].

Lemma amp_written print : written_vlrs (sv_of print) amp_header = [sample_vlr 5 [1;2;3]; sample_vlr 6 []] ++ [sv_of print (h_schema amp_header)].
Proof.
  unfold written_vlrs. assert (C : is_custom (h_schema amp_header) = true) by (vm_compute; reflexivity). rewrite C.
  assert (E : filter (fun v => negb (is_crs v) && negb (has_id "laszip encoded" 22204 v) && negb (true && has_id "liblas" 7 v)) (h_vlrs amp_header) =
    [sample_vlr 5 [1;2;3]; sample_vlr 6 []]) by (vm_compute; reflexivity).
  rewrite E. assert (G : h_srs amp_header = []) by (vm_compute; reflexivity). rewrite G. reflexivity.
Qed.
Lemma amp_vlr print : Z.of_nat (length (print (schema_tree (h_schema amp_header)))) <= 65535 ->
  sv_of print (h_schema amp_header) = mkVlr (print (schema_tree (h_schema amp_header))) (pad_to 32 (str "http://liblas.org/schema/"))
     (pad_to 16 (str "liblas")) 43707 7 (Z.of_nat (length (print (schema_tree (h_schema amp_header))))).
Proof.
  intros H. unfold sv_of, schema_get_vlr. set (T := print _) in *. clearbody T.
  change (vlr_set_user vlr_new (str "liblas")) with (Ok (mkVlr (v_data vlr_new) (v_desc vlr_new) (pad_to 16 (str "liblas")) (v_reserved vlr_new) 0 0)).
  cbn [obind]. destruct (Z.ltb_spec 65535 (Z.of_nat (length T))); [lia|].
  unfold vlr_set_desc, vlr_set_data, vlr_set_size, vlr_set_id. cbn [v_desc v_user v_reserved v_id v_size].
  change (length (v_desc vlr_new) <? length (str "http://liblas.org/schema/"))%nat with false. cbn iota.
  change (7 mod 2 ^ 16) with 7. rewrite Z.mod_mod by lia. rewrite Z.mod_small by lia. reflexivity.
Qed.
Lemma amp_session print : bytes_ok (print (schema_tree (h_schema amp_header))) ->
  Z.of_nat (length (print (schema_tree (h_schema amp_header)))) <= 65535 ->
  session_core (sv_of print) amp_header amp_points.
Proof.
  intros HB HL. pose proof (amp_vlr print HL) as EV. pose proof (amp_written print) as EW.
  set (T := print (schema_tree (h_schema amp_header))) in *. clearbody T.
  assert (W : vlr_wf (sv_of print (h_schema amp_header))).
  { rewrite EV. unfold vlr_wf. cbn [v_user v_desc v_data v_reserved v_id v_size].
    split; [reflexivity|]. split; [reflexivity|]. split; [apply bytes_okb_ok; reflexivity|]. split; [apply bytes_okb_ok; reflexivity|].
    split; [exact HB|]. unfold in_unsigned. lia. }
  assert (HID : has_id "liblas" 7 (sv_of print (h_schema amp_header)) = true) by (rewrite EV; reflexivity).
  assert (SZ : vlrs_size (written_vlrs (sv_of print) amp_header) = 111 + (54 + Z.of_nat (length T))).
  { rewrite EW, EV. cbn [app vlrs_size fold_right v_data]. change (Z.of_nat (length (v_data (sample_vlr 5 [1;2;3])))) with 3.
    change (Z.of_nat (length (v_data (sample_vlr 6 [])))) with 0. lia. }
  assert (HS : h_hsize amp_header = 227) by (vm_compute; reflexivity).
  assert (HD : h_doff amp_header = 227) by (vm_compute; reflexivity).
  split; [|split; [|split]].
  - unfold fresh_ok. rewrite SZ, HS, HD.
    split; [apply header_wfb_ok; vm_compute; reflexivity|]. split; [vm_compute; reflexivity|].
    split; [assert (G : h_srs amp_header = []) by (vm_compute; reflexivity); rewrite G; constructor|].
    split; [intros _; split; assumption|].
    split.
    { rewrite EW. apply Forall_app. split.
      - apply Forall_cons; [split; [apply vlr_wfb_ok; vm_compute; reflexivity|vm_compute; reflexivity]|].
        apply Forall_cons; [split; [apply vlr_wfb_ok; vm_compute; reflexivity|vm_compute; reflexivity]|apply Forall_nil].
      - apply Forall_cons; [|apply Forall_nil]. split; [exact W|]. rewrite EV. reflexivity. }
    split; [lia|]. split; [lia|]. split; lia.
  - split; [vm_compute; reflexivity|]. split; [vm_compute; reflexivity|]. split; [vm_compute; discriminate|].
    split; [vm_compute; split; discriminate|vm_compute; reflexivity].
  - vm_compute. reflexivity.
  - assert (RL : get_record_length amp_header = 36) by (vm_compute; reflexivity). rewrite RL.
    unfold amp_points. repeat apply Forall_cons; try apply Forall_nil; cbn [p_data];
      (split; [split; [vm_compute; discriminate|discriminate]|apply bytes_okb_ok; vm_compute; reflexivity]).
Qed.

(** The user's field is not found in the reopened file, whatever the XML printer and parser are. *)
Theorem C54_fields_survive_refuted : exists h ps, forall print parse doy year,
  bytes_ok (print (schema_tree (h_schema h))) -> Z.of_nat (length (print (schema_tree (h_schema h)))) <= 65535 ->
  text_parses print parse (h_schema h) ->
  session_core (sv_of print) h ps /\
  (exists d, get_dimension (h_schema h) "Amplitude" = Some d /\ d_bits d = 16 /\ d_byteoff d = 34) /\
  exists F r, write_file (sv_of print) h ps = Ok F /\ reader_open (schema_of_vlr parse) doy year F = Ok r /\
    get_dimension (h_schema (r_hdr r)) "Amplitude" = None /\
    exists d, get_dimension (h_schema (r_hdr r)) "extra" = Some d /\ d_bits d = 16 /\ d_byteoff d = 34.
Proof.
  exists amp_header, amp_points. intros print parse doy year HB HL HT.
  pose proof (amp_session print HB HL) as HS. split; [exact HS|].
  split.
  { assert (X : match get_dimension (h_schema amp_header) "Amplitude" with Some d => (d_bits d =? 16) && (d_byteoff d =? 34) | None => false end = true)
      by (vm_compute; reflexivity).
    destruct (get_dimension (h_schema amp_header) "Amplitude") as [d|]; [|discriminate]. exists d.
    rewrite andb_true_iff, !Z.eqb_eq in X. split; [reflexivity|exact X]. }
  destruct (C54_custom_partial print parse doy year amp_header amp_points 0 HS) as (F & r & r' & EW & ER & _ & SH & _); [vm_compute; reflexivity|exact HT| |].
  { repeat apply Forall_cons; try apply Forall_nil; vm_compute; reflexivity. }
  exists F, r. split; [exact EW|]. split; [exact ER|].
  assert (RL : get_record_length amp_header = 36) by (vm_compute; reflexivity).
  assert (FM : get_format amp_header = 3) by (vm_compute; reflexivity). rewrite RL, FM in SH.
  change (((36 - std_length 3) * 8) mod 2 ^ 64) with 16 in SH. change (std_length 3 =? 36) with false in SH. cbn iota in SH.
  split.
  - destruct (get_dimension (h_schema (r_hdr r)) "Amplitude") as [d|] eqn:E; [|reflexivity]. exfalso.
    unfold get_dimension, find_name in E. apply find_some in E as (Hin & Hn). rewrite String.eqb_eq in Hn.
    destruct SH as (S1 & _). unfold schema_fields in S1. apply (by_pos_in (s_dims (h_schema (r_hdr r)))) in Hin.
    apply (in_map field_of) in Hin. rewrite S1 in Hin. apply (in_map f_name) in Hin. cbn [field_of f_name] in Hin. rewrite Hn in Hin.
    assert (X : existsb (String.eqb "Amplitude") (map f_name (std_fields 3 ++ [mkField "extra" 16 false])) = true).
    { apply existsb_exists. exists "Amplitude"%string. split; [exact Hin|reflexivity]. }
    vm_compute in X. discriminate.
  - destruct (shows_lookup _ _ 16%nat (mkField "extra" 16 false) SH) as (d & G & Fd & Od).
    + apply (NoDup_count_occ' String.string_dec). intros x Hx.
      assert (X : forallb (fun y => Nat.eqb (count_occ String.string_dec (map f_name (std_fields 3 ++ [mkField "extra" 16 false])) y) 1)
                    (map f_name (std_fields 3 ++ [mkField "extra" 16 false])) = true) by (vm_compute; reflexivity).
      rewrite forallb_forall in X. specialize (X x Hx). now apply Nat.eqb_eq in X.
    + reflexivity.
    + exists d. cbn [f_name] in G. split; [exact G|]. split; [exact (f_equal f_bits Fd)|]. rewrite Od. reflexivity.
Qed.
Print Assumptions C54_fields_survive_refuted.

Example C54_instance : exists print parse, text_parses print parse (h_schema amp_header) /\
  bytes_ok (print (schema_tree (h_schema amp_header))) /\ Z.of_nat (length (print (schema_tree (h_schema amp_header)))) <= 65535 /\
  is_custom (h_schema amp_header) = true /\ length amp_points = 2%nat.
Proof.
  exists (fun _ => str "<LASSchema/>"), (fun _ => Ok (schema_tree (h_schema amp_header))).
  split; [reflexivity|]. split; [apply bytes_okb_ok; vm_compute; reflexivity|]. split; [vm_compute; discriminate|]. split; vm_compute; reflexivity.
Qed.

(** The reason is the version alone: it is written as "1.0" and read as an integer.  The same tree with an integer for
    the version would give the layout back: names, sizes, offsets, order, format. *)
Theorem C54_version_text : forall fmt os s0 s ver v, 0 <= fmt <= 3 -> Z.of_nat (length os) < 2 ^ 29 -> sops_ok (std_fields fmt) os ->
  schema_new fmt = Ok s0 -> sops_run s0 os = Ok s ->
  let fs := fold_left sop_spec os (std_fields fmt) in
  Forall (fun f => f_bits f < 2 ^ 32) fs -> read_uint 16 ver = Some v ->
  load_schema (schema_tree s) = Throw ERuntime /\
  exists s', load_schema (schema_tree_with ver s) = Ok s' /\ schema_shows s fs /\ schema_shows s' fs /\
    s_format s' = s_format s /\
    map (fun d => (d_name d, d_active d, d_signed d, d_integer d, d_pos d)) (by_pos (s_dims s')) =
    map (fun d => (d_name d, d_active d, d_signed d, d_integer d, d_pos d)) (by_pos (s_dims s)).
Proof.
  intros fmt os s0 s ver v Hf Hl Ho E0 E fs Hb Hv. split; [apply own_tree_fails|].
  destruct (sinv_new fmt Hf) as (s0' & E0' & I0 & _). rewrite E0 in E0'. injection E0' as <-.
  destruct (sinv_run os 0 s0 _ ltac:(lia) ltac:(lia) I0 Ho) as (s1 & E1 & I1). rewrite E in E1. injection E1 as <-.
  fold fs in I1.
  destruct (numeric_tree_loads _ s fs ver v I1 Hb) as (s' & A & B & C & D).
  - apply (sops_positions os s0 s); [eapply schema_new_positions; exact E0|exact E].
  - exact Hv.
  - exists s'. split; [exact A|]. split; [eapply sinv_shows; exact I1|]. auto.
Qed.
Print Assumptions C54_version_text.

Example C54_version_instance : sops_ok (std_fields 1) [SOAdd "Amplitude" 16 true false true; SOFormat 3; SOAdd "Width" 24 false false false] /\
  read_uint 16 "1" = Some 1 /\ read_uint 16 "1.0" = None.
Proof.
  split; [|split; reflexivity].
  cbn [sops_ok sop_ok]. repeat split; try lia; cbn; intuition discriminate.
Qed.

(** ** C55: listing a layout, which the writer does on the standard output for every custom layout (detail/writer/header.cpp:123) *)
(** Blanks inserted while listing all dimensions. *)
Definition listing_steps (s : schema) : Z := fold_right (fun d n => pad_steps (d_name d) + n) 0 (by_pos (s_dims s)).

Lemma pad_steps_ok n : (String.length n <= 28)%nat -> 0 <= pad_steps n <= 28.
Proof. intros H. unfold pad_steps. rewrite Z.mod_small by lia. lia. Qed.
Theorem C55_listing_partial : forall s, Forall (fun d => (String.length (d_name d) <= 28)%nat) (s_dims s) ->
  0 <= listing_steps s <= 28 * Z.of_nat (length (by_pos (s_dims s))).
Proof.
  intros s H. assert (H' : Forall (fun d => (String.length (d_name d) <= 28)%nat) (by_pos (s_dims s))).
  { rewrite Forall_forall in *. intros x Hx. apply (proj1 (by_pos_in _ x)) in Hx. auto. }
  unfold listing_steps. induction H' as [|d l Hd Hl IH]; cbn [fold_right length]; [lia|]. pose proof (pad_steps_ok _ Hd). lia.
Qed.
Print Assumptions C55_listing_partial.
(** A name of 29 characters or more: the unsigned subtraction wraps, and the loop that inserts the blanks runs 2^64 - 1
    times or nearly so.  Such a layout is accepted by AddDimension but writing the file does not come to an end. *)
Theorem C55_long_name_exact : forall s d, In d (s_dims s) -> 29 <= Z.of_nat (String.length (d_name d)) < 2 ^ 63 ->
  pad_steps (d_name d) = 2 ^ 64 + 28 - Z.of_nat (String.length (d_name d)) /\ 2 ^ 63 < listing_steps s.
Proof.
  intros s d Hin Hl. assert (E : pad_steps (d_name d) = 2 ^ 64 + 28 - Z.of_nat (String.length (d_name d))).
  { unfold pad_steps. rewrite <- (Z.mod_add _ 1) by lia. rewrite Z.mod_small by lia. lia. }
  split; [exact E|]. apply (by_pos_in (s_dims s)) in Hin. unfold listing_steps.
  induction (by_pos (s_dims s)) as [|x l IH]; [contradiction|]. cbn [fold_right].
  assert (NN : forall m, 0 <= fold_right (fun d n => pad_steps (d_name d) + n) 0 m).
  { induction m as [|y m IHm]; cbn [fold_right]; [lia|]. unfold pad_steps at 1. pose proof (Z.mod_pos_bound (30 - (Z.of_nat (String.length (d_name y)) + 2)) (2 ^ 64) ltac:(lia)). lia. }
  destruct Hin as [->|Hin].
  - specialize (NN l). lia.
  - specialize (IH Hin). unfold pad_steps at 1. pose proof (Z.mod_pos_bound (30 - (Z.of_nat (String.length (d_name x)) + 2)) (2 ^ 64) ltac:(lia)). lia.
Qed.
Print Assumptions C55_long_name_exact.
Theorem C55_terminates_refuted : exists name s0 s, sops_ok (std_fields 0) [SOAdd name 16 true false true] /\ String.length name = 29%nat /\
  schema_new 0 = Ok s0 /\ sops_run s0 [SOAdd name 16 true false true] = Ok s /\ is_custom s = true /\ 2 ^ 63 < listing_steps s.
Proof.
  destruct (sinv_new 0 ltac:(lia)) as (s0 & E0 & I0 & _).
  assert (HO : sops_ok (std_fields 0) [SOAdd "Signal_To_Noise_Ratio_Of_Echo" 16 true false true]).
  { cbn [sops_ok sop_ok]. repeat split; try lia; intros Hin.
    - assert (X : existsb (String.eqb "Signal_To_Noise_Ratio_Of_Echo") std_names = true)
        by (apply existsb_exists; eexists; split; [exact Hin|reflexivity]). vm_compute in X. discriminate.
    - assert (X : existsb (String.eqb "Signal_To_Noise_Ratio_Of_Echo") (map f_name (std_fields 0)) = true)
        by (apply existsb_exists; eexists; split; [exact Hin|reflexivity]). vm_compute in X. discriminate. }
  destruct (sinv_run [SOAdd "Signal_To_Noise_Ratio_Of_Echo" 16 true false true] 0 s0 (std_fields 0) ltac:(lia) ltac:(cbn [List.length]; lia) I0 HO) as (s & E & I1).
  exists "Signal_To_Noise_Ratio_Of_Echo"%string, s0, s. split; [exact HO|]. split; [reflexivity|]. split; [exact E0|]. split; [exact E|].
  destruct (sinv_has _ s _ "Signal_To_Noise_Ratio_Of_Echo" I1) as (d & G & Hin); [cbn [fold_left sop_spec]; rewrite map_app; apply in_or_app; right; left; reflexivity|].
  pose proof G as G2. unfold get_dimension, find_name in G2. apply find_some in G2 as (_ & Hn). rewrite String.eqb_eq in Hn.
  split.
  - apply existsb_exists. exists d. split; [now apply (by_pos_in (s_dims s))|].
    destruct (sinv_shows _ _ _ I1) as (S1 & _). unfold schema_fields in S1. apply (by_pos_in (s_dims s)) in Hin.
    apply (in_map field_of) in Hin. rewrite S1 in Hin. cbn [fold_left sop_spec] in Hin. apply in_app_or in Hin as [Hin|[Hin|[]]].
    + exfalso. apply (in_map f_name) in Hin. cbn [field_of f_name] in Hin. rewrite Hn in Hin.
      assert (X : existsb (String.eqb "Signal_To_Noise_Ratio_Of_Echo") (map f_name (std_fields 0)) = true)
        by (apply existsb_exists; eexists; split; [exact Hin|reflexivity]). vm_compute in X. discriminate.
    + apply (f_equal f_required) in Hin. cbn [field_of f_required] in Hin. now rewrite <- Hin.
  - apply (C55_long_name_exact s d Hin). rewrite Hn. cbn. lia.
Qed.
Print Assumptions C55_terminates_refuted.

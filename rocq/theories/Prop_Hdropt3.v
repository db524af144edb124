(** C74, continued: cases that meet the hypotheses of the theorems of
    Prop_Hdropt.v and Prop_Hdropt2.v. *)
From Coq Require Import ZArith List Bool Lia String.
From Coq Require Import ZifyBool ZifyNat.
Import ListNotations.
From Flocq Require Import Core BinarySingleNaN Binary Bits.
From Verif Require Import Outcome Bytes Float64 Float64_Proofs CStr Vlr_Model Schema_Model Schema_Spec Schema_Api Schema_Proofs Header_Model Point_Model Point_Spec Point_Api Point_Proofs Coord_Api Stream_Model Stream_Proofs
  IO_Spec Reader_Proofs Reader_Vlrs Reader_Model Reader_Spec Reader_Schema Reader_Api Reader_Open Reader_Hist Reader_Filter Writer_Model Writer_Api Writer_Proofs Writer_File
  Writer_Append IO_Samples Prop_Reader Iter_Spec Iter_Model Iter_Proofs Rewrite_Proofs Rewrite_Gap Rewrite_Read Prop_Rewrite Summary_Model Summary_Spec Summary_Proofs Prop_Summary Text_Model Text_Proofs
  Las2las_Spec Las2las_Copy Las2las_Model Las2las_Summary Las2las_File Las2las_Loop Las2las_Points Las2las_Main Las2las_Split Prop_Las2las
  Cli_Model Cli_Spec Cli_Proofs Hdropt_Model Hdropt_Spec Hdropt_Write Hdropt_Proofs Hdropt_Main Prop_Coord Prop_Hdropt Prop_Hdropt2.
Local Open Scope Z_scope.
Local Notation length := List.length (only parsing).

(** A change of everything that can be changed, and how it is typed. *)
Definition two : f64 := f64_of_bits 0x4000000000000000.
Definition half : f64 := f64_of_bits 0x3FE0000000000000.
Definition my_vlr : new_vlr := mkNew (str "someone") 5 (str "a note") [1; 2; 3].
Definition big_change (k : Z) : change :=
  mkChange (Some (half, half, two)) (Some (two, two, half)) (Some 1) (Some k) (Some (10, 2012)) (Some my_vlr) (Some (str "my tool")) (Some (str "my box")).
Definition big_options (k : Z) : hopts :=
  mkHopts (Some (str "0.5,0.5,2")) (Some [two; two; half]) (Some (str "1.1")) (Some k) None (Some [str "10"; str "2012"]) false None
    (Some [str "someone"; str "5"; str "a note"; str "note.bin"]) (Some (str "my tool")) (Some (str "my box")).
Definition atof3 (s : text) : f64 := if zlist_eqb s (str "0.5") then half else two.
Definition disk (s : text) : option (list Z) := if zlist_eqb s (str "note.bin") then Some [1; 2; 3] else None.
(** three records of format 0; one of format 3; one VLR *)
Definition timed : list Z := raw_file 2 227 0 3 34 1 (repeat 9 28 ++ repeat 1 6).
Definition noted : list Z := raw_file 2 (227 + 57) 1 0 20 1 (vlr_image (sample_vlr 5 [1; 2; 3]) ++ rec_of 7).

Lemma num10 : numeral (str "10") 10.
Proof. exact (num_more [49] 1 0 (num_digit 1 ltac:(lia)) ltac:(lia)). Qed.
Lemma num2012 : numeral (str "2012") 2012.
Proof.
  assert (A : numeral (str "201") 201) by exact (num_more (str "20") 20 1 (num_more [50] 2 0 (num_digit 2 ltac:(lia)) ltac:(lia)) ltac:(lia)).
  exact (num_more (str "201") 201 2 A ltac:(lia)).
Qed.
Lemma big_typed t k : 0 <= k <= 3 -> typed_as atof3 disk t (big_change k) (big_options k).
Proof.
  intros K. unfold typed_as, big_change, big_options. cbn [c_offset c_scale c_minor c_format c_date c_vlr c_software c_system a_offset a_scale a_file_format a_point_format a_pad a_creation a_add_schema a_delete_vlr a_add_vlr a_software a_system both].
  assert (W : forall w, In w [str "0.5"; str "2"] -> word w).
  { intros w [<-|[<-|[]]]; (split; [discriminate|split; [discriminate|]]); repeat apply Forall_cons; try apply Forall_nil; cbn; lia. }
  assert (L : forall s, In s [str "someone"; str "a note"; str "my tool"; str "my box"] -> (length s <= 16)%nat /\ bytes_ok s /\ no_nul s).
  { intros s Hs. cbn [In] in Hs. decompose [or] Hs; try contradiction; subst s; (split; [cbn; lia|split; [apply bytes_okb_ok; reflexivity|intros X; vm_compute in X; decompose [or] X; discriminate || contradiction]]). }
  split; [|split; [reflexivity|split; [|split; [split; [reflexivity|exact K]|split; [|split; [|split; [|split; [|auto]]]]]]]].
  - exists (str "0.5"), (str "0.5"), (str "2"), 44, 44. split; [apply W; cbn; tauto|]. split; [apply W; cbn; tauto|]. split; [apply W; cbn; tauto|].
    split; [cbn; tauto|]. split; [cbn; tauto|]. split; reflexivity.
  - exists (str "1"). split; [exact (num_digit 1 ltac:(lia))|]. split; [lia|reflexivity].
  - right. exists (str "10"), (str "2012"). cbn [fst snd]. split; [exact num10|]. split; [exact num2012|]. split; [lia|]. split; [lia|reflexivity].
  - unfold vlr_text, label. cbn [my_vlr n_user n_desc n_data n_id]. destruct (L (str "someone") ltac:(cbn; tauto)) as (L1 & L2 & L3). destruct (L (str "a note") ltac:(cbn; tauto)) as (M1 & M2 & M3).
    split; [auto|]. split; [split; [lia|auto]|]. split; [apply bytes_okb_ok; reflexivity|]. split; [cbn; lia|].
    exists (str "5"), (str "note.bin"). split; [exact (num_digit 5 ltac:(lia))|]. split; [lia|]. split; [left; split; [reflexivity|discriminate]|]. left. reflexivity.
  - split; [reflexivity|]. destruct (L (str "my tool") ltac:(cbn; tauto)) as (M1 & M2 & M3). split; [lia|auto].
  - split; [reflexivity|]. destruct (L (str "my box") ltac:(cbn; tauto)) as (M1 & M2 & M3). split; [lia|auto].
Qed.

Ltac one_scaling F :=
  let k := fresh "k" in let Hk := fresh "Hk" in let B := fresh "B" in
  intros k Hk; cbv zeta;
  assert (B : u_at F (131 + 8 * k) 8 = 0x3FF0000000000000 /\ u_at F (155 + 8 * k) 8 = 0)
    by (destruct k as [|[|[|]]]; try (split; vm_compute; reflexivity); lia);
  destruct B as (-> & ->); rewrite one_bits; split; [exact one_scale|split; [vm_compute; reflexivity|exact zero_offset]].
Ltac standard_file :=
  split; [split; [apply las_fileb_ok; vm_compute; reflexivity|]; split; [apply no_schema_vlrb; vm_compute; reflexivity|];
           split; [repeat apply Forall_cons; try apply Forall_nil; vm_compute; reflexivity|];
           split; [vm_compute; reflexivity|intros _; vm_compute; discriminate]
          |split; [apply las_fileb_ok; vm_compute; reflexivity|]; split; [apply no_schema_vlrb; vm_compute; reflexivity|];
           split; [vm_compute; reflexivity|]; split; [vm_compute; repeat apply Forall_cons; try apply Forall_nil; reflexivity|];
           split; [vm_compute; discriminate|split; vm_compute; reflexivity]].
Lemma timed_translatable : translatable timed.
Proof. split; [standard_file|]. split; [vm_compute; discriminate|]. split; [left; vm_compute; discriminate|]. one_scaling timed. Qed.
Lemma noted_translatable : translatable noted.
Proof. split; [standard_file|]. split; [vm_compute; discriminate|]. split; [left; vm_compute; discriminate|]. one_scaling noted. Qed.

Lemma big_doable F k : translatable F -> start_after F (big_change k) + 4 < 2 ^ 31 -> doable F (big_change k).
Proof.
  intros HT HS. split; [exact HT|]. split; [split; [reflexivity|split; reflexivity]|]. split; [split; [reflexivity|split; reflexivity]|].
  split; [repeat constructor|]. split; [exact HS|]. intros X. discriminate X.
Qed.

Theorem C74_instance :
  (forall t, typed_as atof3 disk t (big_change 0) (big_options 0) /\ typed_as atof3 disk t (big_change 2) (big_options 2)) /\
  changeable (gapped 2 0) (big_change 0) /\ changeable noted (big_change 0) /\ changeable timed (big_change 2) /\ has_time (u_at timed 104 1) = true /\
  (forall h, delivered (gapped 2 0) h None = [rec_of 7; rec_of 8; rec_of 9]) /\ (forall h, delivered timed h None = [repeat 9 28 ++ repeat 1 6]) /\
  (translatable noted /\ gap noted = 0 /\ In (sample_vlr 5 [1; 2; 3]) (file_vlrs noted) /\ numeral (str "5") (v_id (sample_vlr 5 [1; 2; 3])) /\ is_crs (sample_vlr 5 [1; 2; 3]) = false) /\
  f_reclen (gapped 2 0) < std_length 1.
Proof.
  split; [intros t; split; apply big_typed; lia|].
  split; [split; [apply big_doable; [apply gapped_translatable; cbn; tauto|vm_compute; reflexivity]|vm_compute; discriminate]|].
  split; [split; [apply big_doable; [exact noted_translatable|vm_compute; reflexivity]|vm_compute; discriminate]|].
  split; [split; [apply big_doable; [exact timed_translatable|vm_compute; reflexivity]|vm_compute; discriminate]|].
  split; [reflexivity|]. split; [intros h; vm_compute; reflexivity|]. split; [intros h; vm_compute; reflexivity|].
  split; [|vm_compute; reflexivity]. split; [exact noted_translatable|]. split; [vm_compute; reflexivity|]. split; [left; vm_compute; reflexivity|]. split; [exact (num_digit 5 ltac:(lia))|reflexivity].
Qed.
Print Assumptions C74_instance.

(** A file whose points have moved. *)
Definition scaled : hopts := mkHopts None (Some [two; two; two]) None None None None false None None None None.
Theorem C74_moved_refuted : forall atof readraw t, real_tool t -> exists F r G r2 d x x',
  translatable F /\ reader_open (t_xml t) (t_doy t) (t_year t) F = Ok r /\ las2las_edit atof readraw t scaled 0 0 no_filter tt 5 F = Ok [G] /\
  reader_open (t_xml t) (t_doy t) (t_year t) G = Ok r2 /\ In d (records_from F 0) /\ In d (records_from G 0) /\
  get_coord AxX (mkPoint d (r_hdr r)) = Ok x /\ get_coord AxX (mkPoint d (r_hdr r2)) = Ok x' /\ f64_eq x x' = false.
Proof.
  intros atof readraw t TT. set (F := gapped 2 0). pose proof (gapped_translatable 2 0 ltac:(cbn; tauto) ltac:(cbn; tauto)) as HT. fold F in HT.
  set (c := mkChange None (Some (two, two, two)) None None None None None None).
  assert (TY : typed_as atof readraw t c scaled) by (unfold typed_as, c, scaled; cbn [c_offset c_scale c_minor c_format c_date c_vlr c_software c_system a_offset a_scale a_file_format a_point_format a_pad a_creation a_add_schema a_delete_vlr a_add_vlr a_software a_system both]; intuition).
  assert (CH : changeable F c).
  { split; [|vm_compute; discriminate]. split; [exact HT|]. split; [exact I|]. split; [split; [reflexivity|split; reflexivity]|]. split; [constructor|]. split; [vm_compute; reflexivity|]. intros X. vm_compute in X. discriminate X. }
  destruct (C74_edit_partial atof readraw t F c scaled None 5 TT TY CH) as (r & G & E & EL & ED); [intros X; now destruct X|vm_compute; lia|].
  destruct (C74_scale_refuted atof readraw t F c scaled None 5 TT TY CH) as (r' & G' & E' & EL' & RG & SG & OG & _); [intros X; now destruct X|vm_compute; lia|reflexivity|].
  rewrite E in E'. apply Writer_Append.Ok_inj in E'. subst r'. rewrite EL in EL'. apply Writer_Append.Ok_inj in EL'. injection EL' as <-.
  pose proof ED as (ST & _). destruct (opened_header t G ST) as (r2 & E2 & Sh2 & _). pose proof HT as (HS & _). destruct (opened_header t F HS) as (r' & E' & Sh & _). rewrite E in E'. apply Writer_Append.Ok_inj in E'. subst r'.
  assert (DE : forall h, delivered F h None = [rec_of 7; rec_of 8; rec_of 9]) by (intros h; vm_compute; reflexivity). rewrite DE in RG.
  assert (D0 : records_from F 0 = [rec_of 7; rec_of 8; rec_of 9]) by (vm_compute; reflexivity).
  assert (SC : forall H h sb ob, shows_file H h -> ph_scale (pub_of_file H) = (sb, sb, sb) -> ph_offset (pub_of_file H) = (ob, ob, ob) -> scale_of AxX h = f64_of_bits sb /\ Coord_Api.offset_of AxX h = f64_of_bits ob).
  { intros H h sb ob (PP & _) PS PO. rewrite <- PP in PS, PO. cbn [ph_scale ph_offset pub_of_header] in PS, PO.
    unfold scale_of, Coord_Api.offset_of, axis_of. destruct (h_scale h) as [[sx sy] sz]. destruct (h_offset h) as [[ox oy] oz].
    unfold bits3 in PS, PO. cbn [x_of y_of z_of fst snd] in *. injection PS as P1 _ _. injection PO as Q1 _ _. rewrite <- P1, <- Q1, !f64_of_bits_bits. split; reflexivity. }
  assert (PS0 : ph_scale (pub_of_file F) = (0x3FF0000000000000, 0x3FF0000000000000, 0x3FF0000000000000)) by (vm_compute; reflexivity).
  assert (PO0 : ph_offset (pub_of_file F) = (0, 0, 0)) by (vm_compute; reflexivity).
  rewrite PO0 in OG. cbn [c c_offset option_map or_else] in OG.
  assert (SG' : ph_scale (pub_of_file G) = (0x4000000000000000, 0x4000000000000000, 0x4000000000000000)) by (rewrite SG; cbn [c c_scale option_map or_else]; vm_compute; reflexivity).
  destruct (SC F (r_hdr r) _ _ Sh PS0 PO0) as (S1 & O1). destruct (SC G (r_hdr r2) _ _ Sh2 SG' OG) as (S2 & O2).
  pose proof HS as (_ & HP). pose proof ST as (_ & HPG).
  assert (LG : f_reclen G = 20).
  { destruct ED as (_ & _ & _ & _ & _ & P1). rewrite DE in P1. destruct (P1 ltac:(discriminate)) as (mx & mn & rns & _ & _ & PE). apply (f_equal ph_reclen) in PE.
    change (f_reclen G) with (ph_reclen (pub_of_file G)). rewrite PE. unfold lossy. destruct (_ =? _); vm_compute; reflexivity. }
  assert (B7 : bytes_ok (rec_of 7)) by (apply bytes_okb_ok; vm_compute; reflexivity).
  assert (W1 : point_wf (mkPoint (rec_of 7) (r_hdr r))) by (apply (file_point F (r_hdr r) _ HP Sh); [exact B7|vm_compute; reflexivity]).
  assert (W2 : point_wf (mkPoint (rec_of 7) (r_hdr r2))) by (apply (file_point G (r_hdr r2) _ HPG Sh2); [exact B7|rewrite LG; vm_compute; reflexivity]).
  assert (RA : forall h, point_wf (mkPoint (rec_of 7) h) -> api_get (raw_attr AxX) (mkPoint (rec_of 7) h) = Ok 117901063).
  { intros h W. eapply eq_trans; [exact (Point_Proofs.api_get_spec _ ARawX 0 32 true W eq_refl)|]. f_equal. }
  exists F, r, G, r2, (rec_of 7), (descale (f64_of_bits 0x3FF0000000000000) (f64_of_bits 0) 117901063), (descale (f64_of_bits 0x4000000000000000) (f64_of_bits 0) 117901063).
  split; [exact HT|]. split; [exact E|]. split; [exact EL|]. split; [exact E2|]. split; [rewrite D0; now left|]. split; [rewrite RG; now left|].
  split; [rewrite (coord_of_raw AxX _ _ (RA _ W1)); cbn [p_hdr]; rewrite S1, O1; reflexivity|].
  split; [rewrite (coord_of_raw AxX _ _ (RA _ W2)); cbn [p_hdr]; rewrite S2, O2; reflexivity|].
  vm_compute. reflexivity.
Qed.
Print Assumptions C74_moved_refuted.

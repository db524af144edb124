(** C75, second part: where the code departs from the English, and instances. *)
From Coq Require Import ZArith List Bool Lia String.
From Coq Require Import ZifyBool ZifyNat.
Import ListNotations.
From Verif Require Import Outcome Bytes Float64 CStr Vlr_Model Schema_Model Header_Model Point_Model Point_Spec Point_Api Point_Proofs Coord_Api Stream_Model Stream_Proofs
  IO_Spec Reader_Proofs Reader_Vlrs Reader_Model Reader_Spec Reader_Schema Reader_Api Reader_Open Reader_Hist Reader_Filter Writer_Model Writer_Api Writer_Proofs Writer_File
  Writer_Append IO_Samples Prop_Reader Rewrite_Proofs Rewrite_Gap Rewrite_Read Prop_Rewrite Summary_Model Text_Model
  Las2las_Spec Las2las_Model Las2las_File Las2las_Loop Las2las_Points Las2las_Main Las2las_Split Prop_Las2las Cli_Model Hdropt_Model Prop_Hdropt3
  Transform_Model Prop_Transform Transf_Model Transf_Spec Transf_Proofs Prop_Transf.
Local Open Scope Z_scope.
Local Notation length := List.length (only parsing).

(** Without transform options it is the program of C62. *)
Lemma loop_none {FS} t h mb sp (flt : option (FS -> point -> bool * FS)) fuel : forall r fs l, point_loop_tr t h mb sp flt [] fuel r fs l = point_loop t h mb sp flt fuel r fs l.
Proof.
  induction fuel as [|fuel IH]; intros r fs l; cbn [point_loop_tr point_loop]; [reflexivity|].
  change (transformed []) with (fun p => Ok (p_data p)). destruct (reader_next flt _ r fs) as [[r1 fs1] [[|]|e|u]]; try reflexivity.
  destruct (one_point _ _ _ _ _ _); cbn [obind]; try reflexivity. apply IH.
Qed.
Theorem C75_no_options : forall wrap cast t mb sp (flt : option (unit -> point -> bool * unit)) fuel F,
  las2las_tr wrap cast t (mkPopts None false) mb sp flt tt fuel F = las2las t mb sp flt tt fuel F.
Proof.
  intros wrap cast t mb sp flt fuel F. unfold las2las_tr, las2las. destruct (reader_open _ _ _ F) as [r| |]; cbn [obind]; try reflexivity.
  change (get_transforms wrap cast (mkPopts None false)) with (Ok (@nil transformer)). cbn [obind]. destruct (writer_new _ _ _); cbn [obind]; try reflexivity.
  now rewrite loop_none.
Qed.

(** ** --point-translate under the rules of C++ *)
Lemma next_ub {FS} (flt : option (FS -> point -> bool * FS)) tr r fs r1 fs1 u : reader_next flt no_transform r fs = ((r1, fs1), Ok true) -> tr (r_point r1) = UB u ->
  exists rf, reader_next flt tr r fs = (rf, UB u).
Proof.
  unfold reader_next. intros E U.
  assert (E1 : impl_next flt no_transform r fs = ((r1, fs1), Ok tt)).
  { destruct (impl_next flt no_transform r fs) as [rf [[]|e|v]]; [injection E as ->; reflexivity|destruct e; apply (f_equal snd) in E; discriminate E|apply (f_equal snd) in E; discriminate E]. }
  clear E. unfold impl_next in *. destruct (r_size _ <=? r_current _); [apply (f_equal snd) in E1; discriminate E1|].
  destruct (read_counted _) as [r2 [[]|e|v]]; try (apply (f_equal snd) in E1; discriminate E1).
  destruct (filtered_part flt r2 fs) as [[r3 fs3] [last|e|v]]; try (apply (f_equal snd) in E1; discriminate E1).
  cbn [no_transform] in E1. change (rd_data r3 (p_data (r_point r3))) with (rd_data r3 (r_data r3)) in E1. replace (rd_data r3 (r_data r3)) with r3 in E1 by (destruct r3; reflexivity).
  destruct last; [apply (f_equal snd) in E1; discriminate E1|]. apply (f_equal fst) in E1. cbn [fst] in E1. injection E1 as -> ->. rewrite U. eexists. reflexivity.
Qed.
(** The translated first point is stored with a raw X other than -1 and 2^31-1. *)
Definition ordinary (op : operation) (h : header) (d : list Z) : Prop :=
  exists p1 n, apply_op op (mkPoint d h) = Ok p1 /\ point_wf p1 /\ get_raw_x p1 = Ok n /\ n <> -1 /\ n <> int32_max.
Theorem C75_translate_refuted : forall cast t s op ops b keep fuel F d ds, real_tool t -> translatable F -> filterable F keep -> (Z.to_nat (f_npts F) < fuel)%nat ->
  translation_new cast s = Ok (op :: ops) ->
  exists r, reader_open (t_xml t) (t_doy t) (t_year t) F = Ok r /\
    (delivered F (r_hdr r) keep = d :: ds -> ordinary op (r_hdr r) d ->
     las2las_tr false cast t (mkPopts (Some s) b) 0 0 (the_filter keep) tt fuel F = UB UBIntOverflow).
Proof.
  intros cast t s op ops b keep fuel F d ds TT (HS & HG & Hv & SS) HK Hf TR. destruct (part_ok t F HS HG Hv SS TT) as (r & E & Sh & P). exists r. split; [exact E|].
  intros DE (p1 & n & A & W & G & N1 & N2).
  destruct (P [] (recs_firstn F 0 _ (delivered_recs F (r_hdr r) keep HS))) as (G0 & EW0 & _). destruct (session_split _ _ _ _ EW0) as (w0 & _ & E0 & _ & _).
  destruct (delivered_ok t F keep fuel HS HK Hf) as (r' & r1 & E' & RA & _). rewrite E in E'. apply Writer_Append.Ok_inj in E'. subst r'. rewrite DE in RA.
  unfold las2las_tr. rewrite E. cbn [obind]. unfold get_transforms. cbn [o_translate o_optech]. rewrite TR. cbn [obind]. rewrite E0. cbn [obind].
  destruct fuel as [|fuel]; [discriminate RA|]. cbn [read_all point_loop_tr] in *.
  destruct (reader_next (the_filter keep) no_transform r tt) as [[r2 fs2] o] eqn:N. pose proof (next_hdr _ _ _ _ _ _ _ N) as H2. destruct o as [[|]|e|u]; try discriminate RA.
  destruct (read_all (the_filter keep) fuel r2 fs2) as [[[[l0 b0] r3] fs3]|e|u]; cbn [obind] in RA; try discriminate RA. apply Writer_Append.Ok_inj in RA. apply (f_equal (fun x => fst (fst (fst x)))) in RA. cbn [fst] in RA.
  injection RA as RD _. 
  assert (UBX : transformed ([transform false (op :: ops)] ++ (if b then [optech_transform] else [])) (r_point r2) = UB UBIntOverflow).
  { unfold transformed, r_point. rewrite H2, RD. cbn [app transform_point]. rewrite (C43_signed_overflow_refuted op ops _ p1 n W A G N1 N2). reflexivity. }
  destruct (next_ub _ _ _ _ _ _ _ N UBX) as (rf & ->). destruct rf. reflexivity.
Qed.
Print Assumptions C75_translate_refuted.

(** ** A rejected point can stop the program *)
Definition one_cast (s : string) : option f64 := if String.eqb s "1" then Some (f64_of_Z 1) else None.
Definition reject (p : point) : bool := false.
Definition edge : list Z := raw_file 2 227 0 0 20 3 (rec_of 7 ++ rec_of 8 ++ [255; 255; 255; 127] ++ repeat 9 16).
Lemma edge_translatable : translatable edge.
Proof. split; [standard_file|]. split; [vm_compute; discriminate|]. split; [left; vm_compute; discriminate|]. one_scaling edge. Qed.
Definition stops (xml : vlr -> outcome schema) (doy year : Z) : bool :=
  match reader_open xml doy year edge with
  | Ok r => match reader_next (the_filter (Some reject)) (transformed [transform true [mkOperation OpMultiply AxX (f64_of_Z 1)]]) r tt with (_, Throw EDomain) => true | _ => false end
  | _ => false end.
Theorem C75_rejected_refuted : forall t, real_tool t -> exists F s keep, translatable F /\ filterable F (Some keep) /\
  (forall h, delivered F h (Some keep) = []) /\
  las2las_tr true one_cast t (mkPopts (Some s) false) 0 0 (the_filter (Some keep)) tt 5 F = Throw EDomain /\
  exists G, las2las t 0 0 (the_filter (Some keep)) tt 5 F = Ok [G].
Proof.
  intros t TT. exists edge, "x*1"%string, reject. pose proof edge_translatable as HT. split; [exact HT|].
  assert (HN : f_npts edge = 3) by (vm_compute; reflexivity).
  assert (HK : filterable edge (Some reject)) by (intros _; split; [vm_compute; reflexivity|rewrite HN; lia]). split; [exact HK|].
  assert (DE : forall h, delivered edge h (Some reject) = []) by (intros h; vm_compute; reflexivity). split; [exact DE|].
  split.
  - pose proof HT as (HS & HG & Hv & SS). destruct (part_ok t edge HS HG Hv SS TT) as (r & E & Sh & P).
    destruct (P [] (recs_firstn edge 0 _ (delivered_recs edge (r_hdr r) None HS))) as (G0 & EW0 & _). destruct (session_split _ _ _ _ EW0) as (w0 & _ & E0 & _ & _).
    assert (ST : stops (t_xml t) (t_doy t) (t_year t) = true) by (vm_compute; reflexivity).
    unfold stops in ST. rewrite E in ST. unfold las2las_tr. rewrite E. cbn [obind].
    change (get_transforms true one_cast (mkPopts (Some "x*1"%string) false)) with (Ok [transform true [mkOperation OpMultiply AxX (f64_of_Z 1)]]). cbn [obind]. rewrite E0. cbn [obind point_loop_tr].
    destruct (reader_next _ _ r tt) as [[r1 fs1] [x|e|u]]; try discriminate ST. destruct e; try discriminate ST. reflexivity.
  - destruct (C62_copy_partial t edge (Some reject) 5 TT HT HK) as (r & G & E & EL & _); [rewrite HN; cbn; lia|]. exists G. exact EL.
Qed.
Print Assumptions C75_rejected_refuted.

(** ** Instances *)
Definition moves (F : list Z) (xml : vlr -> outcome schema) (doy year : Z) : bool :=
  match reader_open xml doy year F with
  | Ok r => forallb (fun d => match transform_point [transform true [mkOperation OpAdd AxX (f64_of_Z 1)]; optech_transform] (mkPoint d (r_hdr r)) with Ok _ => true | _ => false end) (records_from F 0)
  | _ => false end.
Definition plain_move (F : list Z) (xml : vlr -> outcome schema) (doy year : Z) : bool :=
  match reader_open xml doy year F with
  | Ok r => match apply_op (mkOperation OpAdd AxX (f64_of_Z 1)) (mkPoint (rec_of 7) (r_hdr r)) with
            | Ok p => match get_raw_x p with Ok n => (n =? 0x07070708) && bytes_okb (p_data p) && (Z.of_nat (length (p_data p)) =? 20) && (p_format p =? 0) | _ => false end
            | _ => false end
  | _ => false end.
Lemma C75_instance : (forall t, exists r, reader_open (t_xml t) (t_doy t) (t_year t) (gapped 2 0) = Ok r /\
    (exists ts, get_transforms true one_cast (mkPopts (Some "x+1"%string) true) = Ok ts /\ length ts = 2%nat /\ all_transform ts (r_hdr r) (gapped 2 0)) /\
    ordinary (mkOperation OpAdd AxX (f64_of_Z 1)) (r_hdr r) (rec_of 7)) /\
  translatable (gapped 2 0) /\ filterable (gapped 2 0) (Some only_nines) /\ (forall h, delivered (gapped 2 0) h None = [rec_of 7; rec_of 8; rec_of 9]) /\
  translation_new one_cast "x+1" = Ok [mkOperation OpAdd AxX (f64_of_Z 1)] /\
  (optech_angle 7 14 /\ optech_angle (-5) (-10) /\ optech_angle 90 127 /\ optech_angle (-90) (-128)) /\ exists t, real_tool t.
Proof.
  split.
  { intros t. pose proof (gapped_translatable 2 0 ltac:(cbn; tauto) ltac:(cbn; tauto)) as ((_ & HP) & _).
    destruct (plain_header (t_xml t) (t_doy t) (t_year t) _ HP) as (r & E & Sh & _). exists r. split; [exact E|].
    assert (M : moves (gapped 2 0) (t_xml t) (t_doy t) (t_year t) = true) by (vm_compute; reflexivity). unfold moves in M. rewrite E in M.
    assert (M2 : plain_move (gapped 2 0) (t_xml t) (t_doy t) (t_year t) = true) by (vm_compute; reflexivity). unfold plain_move in M2. rewrite E in M2.
    split.
    - exists [transform true [mkOperation OpAdd AxX (f64_of_Z 1)]; optech_transform]. split; [reflexivity|]. split; [reflexivity|]. intros d Hd. rewrite forallb_forall in M. specialize (M d Hd).
      destruct (transform_point _ _) as [q| |]; try discriminate M. now exists q.
    - unfold ordinary. destruct (apply_op _ _) as [p| |]; try discriminate M2. destruct (get_raw_x p) as [n| |] eqn:Gx; try discriminate M2.
      apply andb_true_iff in M2. destruct M2 as (M2 & M5). apply andb_true_iff in M2. destruct M2 as (M2 & M4). apply andb_true_iff in M2. destruct M2 as (M2 & M3).
      apply Z.eqb_eq in M2, M4, M5. apply bytes_okb_ok in M3. exists p, n. split; [reflexivity|]. split; [|split; [exact Gx|split; [rewrite M2; discriminate|rewrite M2; discriminate]]].
      split; [rewrite M5; split; discriminate|]. split; [exact M3|]. rewrite M4, M5. vm_compute. discriminate. }
  split; [apply gapped_translatable; cbn; tauto|]. split; [apply C62_instance|]. split; [intros h; vm_compute; reflexivity|]. split; [reflexivity|].
  split; [|apply C62_instance].
  split; [exists 14; split; reflexivity|]. split; [exists (-10); split; reflexivity|]. split; [exists 175; split; reflexivity|exists (-175); split; reflexivity].
Qed.

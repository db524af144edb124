(** C62: las2las copies the points it is asked to copy.  C63: splitting.
    Vocabulary: Las2las_Spec.v; model: Las2las_Model.v, Text_Model.v. *)
From Coq Require Import ZArith List Bool Lia String Reals Lra.
From Coq Require Import ZifyBool ZifyNat.
Import ListNotations.
From Flocq Require Import Core BinarySingleNaN Binary Bits.
From Verif Require Import Outcome Bytes Float64 Float64_Proofs CStr Vlr_Model Schema_Model Schema_Spec Header_Model Point_Model Point_Spec Point_Api
  Coord_Api Coord_Proofs Coord_Header Stream_Model Stream_Proofs IO_Spec Reader_Proofs Reader_Vlrs Reader_Model Reader_Spec Reader_Schema Reader_Api Reader_Open Reader_Hist
  Writer_Model Writer_Api Rewrite_Proofs Prop_Reader Prop_Rewrite IO_Samples Prop_Coord Prop_Summary
  Summary_Spec Text_Model Text_Proofs Las2las_Spec Las2las_Model Las2las_Points Las2las_Main Las2las_Split.
Local Open Scope Z_scope.
Local Notation length := List.length (only parsing).

(** Files las2las is considered on. *)
Definition translatable (F : list Z) : Prop :=
  standard F /\ gap F <= 2 /\ (u_at F 25 1 <> 0 \/ gap F <> 1) /\ sane_scaling F.
(** The property tree of the tool is boost's. *)
Definition real_tool (t : tool) : Prop := t_text t = text16.

(** One output file: exactly the delivered records in their order, the VLRs, the
    header values, the number of points, bounds and return counts of the points
    written (bounds to 16 digits). *)
Theorem C62_copy_partial : forall t F keep fuel, real_tool t -> translatable F -> filterable F keep -> (Z.to_nat (f_npts F) < fuel)%nat ->
  exists r G, reader_open (t_xml t) (t_doy t) (t_year t) F = Ok r /\
    las2las t 0 0 (the_filter keep) tt fuel F = Ok [G] /\ finished F (r_hdr r) (delivered F (r_hdr r) keep) G.
Proof. intros t F keep fuel TT (HS & HG & Hv & SS) HK Hf. now apply las2las_one. Qed.
Print Assumptions C62_copy_partial.

(** How far the bounds can be from the points. *)
Theorem C62_bounds_close : forall t F keep fuel, real_tool t -> translatable F -> filterable F keep -> (Z.to_nat (f_npts F) < fuel)%nat ->
  exists r G, reader_open (t_xml t) (t_doy t) (t_year t) F = Ok r /\ las2las t 0 0 (the_filter keep) tt fuel F = Ok [G] /\
    (records_from G 0 <> [] -> forall ax, exists lo hi,
       least_coord (points_of (r_hdr r) (records_from G 0)) ax lo /\ greatest_coord (points_of (r_hdr r) (records_from G 0)) ax hi /\
       (Rabs (f64_R (f64_of_bits (on_axis ax (ph_min (pub_of_file G)))) - f64_R lo) <= / 1000000000000000 * Rabs (f64_R lo) + bpow radix2 (-1075))%R /\
       (Rabs (f64_R (f64_of_bits (on_axis ax (ph_max (pub_of_file G)))) - f64_R hi) <= / 1000000000000000 * Rabs (f64_R hi) + bpow radix2 (-1075))%R).
Proof.
  intros t F keep fuel TT HT HK Hf. pose proof HT as (HS & HG & Hv & SS). destruct (C62_copy_partial t F keep fuel TT HT HK Hf) as (r & G & E & EL & FI).
  exists r, G. split; [exact E|]. split; [exact EL|]. destruct FI as ((_ & RG & _) & _ & _ & FN). rewrite RG. intros NE ax.
  destruct (FN NE) as (mx & mn & rns & BO & _ & P). destruct (BO ax) as (lo & lo' & hi & hi' & L1 & L2 & T1 & T2 & B1 & B2). exists lo, hi. split; [exact L1|]. split; [exact L2|].
  pose proof HS as (HA & HP). pose proof HA as (HF & _).
  destruct (plain_header (t_xml t) (t_doy t) (t_year t) F HP) as (r' & E' & Sh & _). rewrite E in E'. apply Writer_Append.Ok_inj in E'. subst r'.
  pose proof (header_sane F (r_hdr r) HF SS Sh) as SH. pose proof (points_header F (r_hdr r) _ HP Sh (delivered_recs F (r_hdr r) keep HS)) as FO.
  assert (CL : forall v v', (exists p, In p (points_of (r_hdr r) (delivered F (r_hdr r) keep)) /\ get_coord ax p = Ok v) -> text16 v = Ok v' ->
    (Rabs (f64_R v' - f64_R v) <= / 1000000000000000 * Rabs (f64_R v) + bpow radix2 (-1075))%R).
  { intros v v' (p & Hp & Gp) Tv. rewrite Forall_forall in FO. destruct (FO p Hp) as (W & Eh). destruct (raw_get p ax W) as (n & Gn & Rn).
    rewrite (coord_of_raw ax p n Gn), Eh in Gp. apply Writer_Append.Ok_inj in Gp. subst v. destruct (SH ax) as (S1 & _ & S3).
    destruct (descale_R _ _ n S1 S3 Rn) as (Fd & _ & Bd). destruct (text16_close _ Fd Bd) as (y & Ey & _ & Cy). rewrite Tv in Ey. apply Writer_Append.Ok_inj in Ey. now subst y. }
  assert (PM : ph_max (pub_of_file G) = mx /\ ph_min (pub_of_file G) = mn) by (rewrite P; unfold twice; destruct (_ =? _); split; reflexivity).
  destruct PM as (-> & ->). rewrite B1, B2, !f64_of_bits_bits. split; [apply (CL lo lo')|apply (CL hi hi')]; try assumption; [apply L1|apply L2].
Qed.
Print Assumptions C62_bounds_close.

(** ... but they need not contain the points: the largest x, 3 times 0.1, is
    0.30000000000000004 and the header says 0.3. *)
Definition tenth_file : list Z :=
  let f := raw_file 2 227 0 0 20 1 ([3; 0; 0; 0] ++ repeat 0 16) in
  let s := [0x9A; 0x99; 0x99; 0x99; 0x99; 0x99; 0xB9; 0x3F] in firstn 131 f ++ s ++ s ++ s ++ skipn 155 f.
Lemma tenth_ok : scale_ok tenth /\ f64_lt f64_zero tenth = true.
Proof.
  assert (A : tenth = B754_finite 53 1024 false 7205759403792794 (-56) eq_refl) by (apply B2FF_inj; vm_compute; reflexivity).
  assert (R : f64_R tenth = (7205759403792794 * / 72057594037927936)%R).
  { rewrite A. unfold f64_R, B2R, F2R. cbn [Fnum Fexp cond_Zopp]. change (bpow radix2 (-56)) with (/ IZR (Z.pow_pos 2 56))%R. change (Z.pow_pos 2 56) with 72057594037927936. reflexivity. }
  assert (Fi : f64_fin tenth = true) by now rewrite A.
  split; [|apply f64_lt_R; [apply f64_zero_R|exact Fi|rewrite R, (proj2 f64_zero_R); lra]].
  split; [exact Fi|]. rewrite R. rewrite Rabs_pos_eq by lra. split.
  - apply Rle_trans with (bpow radix2 (-4)); [apply bpow_le; lia|]. change (bpow radix2 (-4)) with (/ 16)%R. lra.
  - apply Rle_trans with (bpow radix2 0); [change (bpow radix2 0) with 1%R; lra|apply bpow_le; lia].
Qed.
Lemma zero_offset : offset_ok (f64_of_bits 0).
Proof. split; [reflexivity|]. change (f64_R (f64_of_bits 0)) with 0%R. rewrite Rabs_R0. apply bpow_ge_0. Qed.
Lemma tenth_translatable : translatable tenth_file /\ exact_end tenth_file /\ f_npts tenth_file = 1.
Proof.
  split; [|split; [intros _; vm_compute; reflexivity|vm_compute; reflexivity]].
  split; [|split; [vm_compute; discriminate|split; [left; vm_compute; discriminate|]]].
  - split; [split; [apply las_fileb_ok; vm_compute; reflexivity|]; split; [apply no_schema_vlrb; vm_compute; reflexivity|];
           split; [repeat apply Forall_cons; try apply Forall_nil; vm_compute; reflexivity|];
           split; [vm_compute; reflexivity|intros _; vm_compute; discriminate]
          |split; [apply las_fileb_ok; vm_compute; reflexivity|]; split; [apply no_schema_vlrb; vm_compute; reflexivity|];
           split; [vm_compute; reflexivity|]; split; [vm_compute; apply Forall_nil|];
           split; [vm_compute; discriminate|split; vm_compute; reflexivity]].
  - intros k Hk. cbv zeta.
    assert (B : u_at tenth_file (131 + 8 * k) 8 = 0x3FB999999999999A /\ u_at tenth_file (155 + 8 * k) 8 = 0).
    { destruct k as [|[|[|]]]; [split; vm_compute; reflexivity|split; vm_compute; reflexivity|split; vm_compute; reflexivity|lia]. }
    destruct B as (-> & ->). destruct tenth_ok as (T1 & T2). split; [exact T1|]. split; [exact T2|exact zero_offset].
Qed.
Lemma tenth_coord h : point_wf (mkPoint ([3; 0; 0; 0] ++ repeat 0 16) h) -> scale_of AxX h = tenth -> Coord_Api.offset_of AxX h = f64_of_bits 0 ->
  get_coord AxX (mkPoint ([3; 0; 0; 0] ++ repeat 0 16) h) = Ok (f64_of_bits 0x3FD3333333333334).
Proof.
  intros W S O. assert (G : api_get (raw_attr AxX) (mkPoint ([3; 0; 0; 0] ++ repeat 0 16) h) = Ok 3).
  { eapply eq_trans; [exact (Point_Proofs.api_get_spec _ ARawX 0 32 true W eq_refl)|]. f_equal. }
  rewrite (coord_of_raw AxX _ 3 G). cbn [p_hdr]. rewrite S, O. f_equal. unfold descale. rewrite tenth_times_three.
  apply B2FF_inj. vm_compute. reflexivity.
Qed.
Definition beyond_bounds (h : header) (G : list Z) : Prop :=
  exists d x, In d (records_from G 0) /\ get_coord AxX (mkPoint d h) = Ok x /\ f64_lt (f64_of_bits (on_axis AxX (ph_max (pub_of_file G)))) x = true.
Lemma tenth_beyond t r G : reader_open (t_xml t) (t_doy t) (t_year t) tenth_file = Ok r -> finished tenth_file (r_hdr r) [[3; 0; 0; 0] ++ repeat 0 16] G -> beyond_bounds (r_hdr r) G.
Proof.
  intros E ((_ & RG & _) & _ & _ & FN). destruct tenth_translatable as (HT & HE & HN).
  destruct (FN ltac:(discriminate)) as (mx & mn & rns & BO & _ & P). destruct (BO AxX) as (_ & _ & hi & hi' & _ & ((p & Hp & Gp) & _) & _ & T2 & _ & B2).
  exists ([3; 0; 0; 0] ++ repeat 0 16), (f64_of_bits 0x3FD3333333333334). rewrite RG. split; [now left|].
  pose proof HT as ((HA & HP) & _).
  destruct (plain_header (t_xml t) (t_doy t) (t_year t) tenth_file HP) as (r' & E' & Sh & _). rewrite E in E'. apply Writer_Append.Ok_inj in E'. subst r'.
  assert (SC : scale_of AxX (r_hdr r) = tenth /\ Coord_Api.offset_of AxX (r_hdr r) = f64_of_bits 0).
  { destruct Sh as (PP & _). pose proof (f_equal ph_scale PP) as PS. pose proof (f_equal ph_offset PP) as PO. cbn [ph_scale ph_offset pub_of_file pub_of_header] in PS, PO.
    unfold scale_of, Coord_Api.offset_of, axis_of. destruct (h_scale (r_hdr r)) as [[sx sy] sz]. destruct (h_offset (r_hdr r)) as [[ox oy] oz].
    unfold bits3 in PS, PO. cbn [x_of y_of z_of fst snd] in *. injection PS as P1 _ _. injection PO as Q1 _ _.
    assert (U1 : u_at tenth_file 131 8 = 0x3FB999999999999A) by (vm_compute; reflexivity). assert (U2 : u_at tenth_file 155 8 = 0) by (vm_compute; reflexivity).
    rewrite U1 in P1. rewrite U2 in Q1. split; [rewrite <- (f64_of_bits_bits sx), P1; reflexivity|rewrite <- (f64_of_bits_bits ox), Q1; reflexivity]. }
  destruct SC as (S1 & S2). assert (W0 : point_wf (mkPoint ([3; 0; 0; 0] ++ repeat 0 16) (r_hdr r))).
  { apply (file_point tenth_file (r_hdr r) _ HP Sh); [apply bytes_okb_ok; vm_compute; reflexivity|vm_compute; reflexivity]. }
  pose proof (tenth_coord (r_hdr r) W0 S1 S2) as TC. split; [exact TC|].
  cbn [points_of map In] in Hp. destruct Hp as [<-|[]]. rewrite TC in Gp. apply Writer_Append.Ok_inj in Gp. subst hi.
  rewrite text16_03 in T2. apply Writer_Append.Ok_inj in T2. subst hi'.
  assert (PM : ph_max (pub_of_file G) = mx) by (rewrite P; unfold twice; destruct (_ =? _); reflexivity). rewrite PM, B2, f64_of_bits_bits.
  destruct three_tenths_R as (F1 & R1 & F2 & R2). apply f64_lt_R; [exact F2|exact F1|]. rewrite R1, R2. lra.
Qed.
Theorem C62_bounds_refuted : forall t, real_tool t -> exists F, translatable F /\ exists r G, reader_open (t_xml t) (t_doy t) (t_year t) F = Ok r /\
  las2las t 0 0 no_filter tt 5 F = Ok [G] /\
  exists d x, In d (records_from G 0) /\ get_coord AxX (mkPoint d (r_hdr r)) = Ok x /\ f64_lt (f64_of_bits (on_axis AxX (ph_max (pub_of_file G)))) x = true.
Proof.
  intros t TT. exists tenth_file. destruct tenth_translatable as (HT & HE & HN). split; [exact HT|].
  destruct (C62_copy_partial t tenth_file None 5 TT HT) as (r & G & E & EL & FI); [intros X; now destruct X|rewrite HN; cbn; lia|].
  exists r, G. split; [exact E|]. split; [exact EL|]. apply (tenth_beyond t r G E).
  assert (RT : delivered tenth_file (r_hdr r) None = [[3; 0; 0; 0] ++ repeat 0 16]) by (vm_compute; reflexivity). rewrite <- RT. exact FI.
Qed.
Print Assumptions C62_bounds_refuted.

(** Nothing delivered: bounds and return counts of the input stay in the header. *)
Theorem C62_empty : forall t F keep fuel, real_tool t -> translatable F -> filterable F keep -> (Z.to_nat (f_npts F) < fuel)%nat ->
  (forall h, delivered F h keep = []) ->
  exists G, las2las t 0 0 (the_filter keep) tt fuel F = Ok [G] /\ f_npts G = 0 /\
    ph_max (pub_of_file G) = ph_max (pub_of_file F) /\ ph_min (pub_of_file G) = ph_min (pub_of_file F) /\ ph_returns (pub_of_file G) = ph_returns (pub_of_file F).
Proof.
  intros t F keep fuel TT HT HK Hf D0. destruct (C62_copy_partial t F keep fuel TT HT HK Hf) as (r & G & E & EL & (_ & _ & FE & _)).
  exists G. split; [exact EL|]. specialize (FE (D0 _)). assert (N : f_npts G = 0) by (change (f_npts G) with (ph_npts (pub_of_file G)); rewrite FE; unfold twice; destruct (_ =? _); reflexivity).
  split; [exact N|]. rewrite FE. unfold twice. destruct (u_at F 25 1 =? 0); repeat split.
Qed.
Print Assumptions C62_empty.

Lemma one_bits : f64_of_bits 0x3FF0000000000000 = f64_of_Z 1.
Proof. apply B2FF_inj. vm_compute. reflexivity. Qed.
Lemma gapped_translatable vmin g : In vmin [0; 2] -> In g [0; 2] -> translatable (gapped vmin g).
Proof.
  intros Hv Hg. assert (Hg' : In g [0; 2; 3]) by (cbn in *; tauto). destruct (gapped_standard vmin g Hv Hg') as (HS & HG & _ & EV).
  split; [exact HS|]. rewrite HG. split; [destruct Hg as [<-|[<-|[]]]; lia|]. split; [right; destruct Hg as [<-|[<-|[]]]; lia|].
  intros k Hk. cbv zeta.
  assert (B : u_at (gapped vmin g) (131 + 8 * k) 8 = 0x3FF0000000000000 /\ u_at (gapped vmin g) (155 + 8 * k) 8 = 0).
  { destruct Hv as [<-|[<-|[]]]; destruct Hg as [<-|[<-|[]]]; destruct k as [|[|[|]]]; try (split; vm_compute; reflexivity); lia. }
  destruct B as (-> & ->). rewrite one_bits. split; [exact one_scale|]. split; [vm_compute; reflexivity|exact zero_offset].
Qed.
(** A filter that accepts the last of three records only: the record is lost (C27). *)
Definition only_nines (p : point) : bool := zlist_eqb (p_data p) (rec_of 9).
Theorem C62_filter_refuted : forall t, real_tool t -> exists F keep G, translatable F /\ exact_end F /\ (exists d, In d (records_from F 0) /\ forall h, keep (mkPoint d h) = true) /\
  las2las t 0 0 (stateless keep) tt 5 F = Ok [G] /\ records_from G 0 = [].
Proof.
  intros t TT. exists (gapped 2 0), only_nines.
  pose proof (gapped_translatable 2 0 ltac:(cbn; tauto) ltac:(cbn; tauto)) as HT. destruct (gapped_standard 2 0 ltac:(cbn; tauto) ltac:(cbn; tauto)) as (_ & _ & HE & _).
  assert (HN : f_npts (gapped 2 0) = 3) by (vm_compute; reflexivity).
  destruct (C62_copy_partial t (gapped 2 0) (Some only_nines) 5 TT HT) as (r & G & E & EL & ((_ & RG & _) & _)); [intros _; split; [exact HE|rewrite HN; lia]|rewrite HN; cbn; lia|].
  exists G. split; [exact HT|]. split; [exact HE|]. split.
  { exists (rec_of 9). assert (RT : records_from (gapped 2 0) 0 = [rec_of 7; rec_of 8; rec_of 9]) by (vm_compute; reflexivity). rewrite RT. split; [right; right; now left|]. reflexivity. }
  split; [exact EL|]. rewrite RG.
  assert (X : forall h, delivered (gapped 2 0) h (Some only_nines) = []) by (intros h; vm_compute; reflexivity). apply X.
Qed.
Print Assumptions C62_filter_refuted.

Example C62_instance : translatable (gapped 2 0) /\ translatable (gapped 0 2) /\ translatable tenth_file /\
  (forall h, delivered (gapped 2 0) h None = [rec_of 7; rec_of 8; rec_of 9]) /\
  (forall h, delivered (gapped 2 0) h (Some (fun p => negb (only_nines p))) = [rec_of 7; rec_of 8]) /\
  filterable (gapped 2 0) (Some only_nines) /\ exists t, real_tool t.
Proof.
  destruct (gapped_standard 2 0 ltac:(cbn; tauto) ltac:(cbn; tauto)) as (_ & _ & HE & _).
  assert (HN : f_npts (gapped 2 0) = 3) by (vm_compute; reflexivity).
  split; [apply gapped_translatable; cbn; tauto|]. split; [apply gapped_translatable; cbn; tauto|]. split; [apply tenth_translatable|].
  split; [intros h; vm_compute; reflexivity|]. split; [intros h; vm_compute; reflexivity|]. split; [intros _; split; [exact HE|rewrite HN; lia]|].
  exists (mkTool no_sv (fun _ => Throw ERuntime) 1 2012 text16). reflexivity.
Qed.

(** ** C63: splitting *)
(** With a limit of [sp] points, or of [mb] megabytes: the delivered records are
    divided into files of [quota] records each, in order; nothing is lost or
    duplicated. *)
Theorem C63_split_partial : forall t F keep fuel mb sp, real_tool t -> translatable F -> filterable F keep -> split_ok mb sp -> (Z.to_nat (f_npts F) < fuel)%nat ->
  exists r gs G, reader_open (t_xml t) (t_doy t) (t_year t) F = Ok r /\
    las2las t mb sp (the_filter keep) tt fuel F = Ok (gs ++ [G]) /\
    split_into F (r_hdr r) (quota F mb sp) (delivered F (r_hdr r) keep) gs G.
Proof. intros t F keep fuel mb sp TT (HS & HG & Hv & SS) HK SO Hf. now apply las2las_split. Qed.
Print Assumptions C63_split_partial.

(** All files together have exactly the delivered records, in order. *)
Lemma chunks_concat {A} (k : nat) : (0 < k)%nat -> forall (gs : list (list Z)) (rec : list Z -> list A) (ds : list A) ,
  (forall i g, nth_error gs i = Some g -> rec g = firstn k (skipn (i * k) ds)) -> List.concat (map rec gs) ++ skipn (length gs * k) ds = ds.
Proof.
  intros Hk. induction gs as [|g gs IH]; intros rec ds H; cbn [map List.concat List.length app]; [reflexivity|].
  rewrite (H 0%nat g eq_refl). cbn [Nat.mul skipn]. rewrite <- app_assoc. rewrite Nat.add_comm, <- skipn_skipn.
  rewrite IH; [apply firstn_skipn|]. intros i x Hx. rewrite (H (S i) x Hx). cbn [Nat.mul]. rewrite skipn_skipn. now rewrite Nat.add_comm.
Qed.
Theorem C63_nothing_lost : forall t F keep fuel mb sp, real_tool t -> translatable F -> filterable F keep -> split_ok mb sp -> (Z.to_nat (f_npts F) < fuel)%nat ->
  exists r fs, reader_open (t_xml t) (t_doy t) (t_year t) F = Ok r /\ las2las t mb sp (the_filter keep) tt fuel F = Ok fs /\
    List.concat (map (fun g => records_from g 0) fs) = delivered F (r_hdr r) keep /\
    Forall (fun g => f_npts g <= quota F mb sp) fs.
Proof.
  intros t F keep fuel mb sp TT HT HK SO Hf. destruct (C63_split_partial t F keep fuel mb sp TT HT HK SO Hf) as (r & gs & G & E & EL & S1 & S2 & (S3 & _)).
  exists r, (gs ++ [G]). split; [exact E|]. split; [exact EL|].
  pose proof HT as ((HA & HP) & _). pose proof HA as (HF & _ & _ & HC). destruct (fields_nonneg F (proj1 HF)) as (_ & _ & RL0).
  assert (RL : 0 < f_reclen F < 2 ^ 16) by (split; [apply HC|apply RL0]).
  pose proof (quota_pos F mb sp RL SO) as KP. set (k := quota F mb sp) in *. set (ds := delivered F (r_hdr r) keep) in *.
  assert (RG : forall i g, nth_error gs i = Some g -> records_from g 0 = firstn (Z.to_nat k) (skipn (i * Z.to_nat k) ds)) by (intros i g Hg; apply (S2 i g Hg)).
  assert (RL' : records_from G 0 = skipn (length gs * Z.to_nat k) ds) by apply S3.
  split.
  - rewrite map_app. cbn [map]. rewrite concat_app. cbn [List.concat]. rewrite app_nil_r, RL'. apply (chunks_concat (Z.to_nat k) ltac:(lia) gs (fun g => records_from g 0)). exact RG.
  - assert (NP : forall g, f_npts g <= Z.of_nat (length (records_from g 0))) by (intros g; unfold records_from; rewrite map_length, seq_length; lia).
    apply Forall_app. split.
    + apply Forall_forall. intros g Hg. apply In_nth_error in Hg. destruct Hg as (i & Hi). specialize (NP g). rewrite (RG i g Hi) in NP.
      pose proof (firstn_le_length (Z.to_nat k) (skipn (i * Z.to_nat k) ds)). lia.
    + apply Forall_cons; [|apply Forall_nil]. specialize (NP G). rewrite RL', skipn_length in NP.
      pose proof (Z.div_mod (Z.of_nat (length ds)) k ltac:(lia)) as DM. pose proof (Z.mod_pos_bound (Z.of_nat (length ds)) k ltac:(lia)). nia.
Qed.
Print Assumptions C63_nothing_lost.

(** The last file is not repaired: bounds and return counts of the whole input,
    and a project id with its bytes swapped. *)
Theorem C63_last_refuted : forall t F keep fuel mb sp, real_tool t -> translatable F -> filterable F keep -> split_ok mb sp -> (Z.to_nat (f_npts F) < fuel)%nat ->
  exists fs G, las2las t mb sp (the_filter keep) tt fuel F = Ok (fs ++ [G]) /\
    ph_max (pub_of_file G) = ph_max (pub_of_file F) /\ ph_min (pub_of_file G) = ph_min (pub_of_file F) /\ ph_returns (pub_of_file G) = ph_returns (pub_of_file F) /\
    slice G 8 16 = guid_swap (slice F 8 16) /\ Forall (fun g => slice g 8 16 = slice F 8 16) fs.
Proof.
  intros t F keep fuel mb sp TT HT HK SO Hf. destruct (C63_split_partial t F keep fuel mb sp TT HT HK SO Hf) as (r & gs & G & E & EL & S1 & S2 & (S3 & SG & SP)).
  exists gs, G. split; [exact EL|]. rewrite SP. unfold once. split; [destruct (u_at F 25 1 =? 0); reflexivity|]. split; [destruct (u_at F 25 1 =? 0); reflexivity|].
  split; [destruct (u_at F 25 1 =? 0); reflexivity|]. split; [exact SG|].
  apply Forall_forall. intros g Hg. apply In_nth_error in Hg. destruct Hg as (i & Hi). destruct (S2 i g Hi) as (_ & SGU & _). exact SGU.
Qed.
Print Assumptions C63_last_refuted.

(** "Each being this size in MB or less": every file but the last is larger. *)
Theorem C63_size_refuted : forall t F keep fuel mb, real_tool t -> translatable F -> filterable F keep -> 0 < mb <= 2048 -> (Z.to_nat (f_npts F) < fuel)%nat ->
  exists fs G, las2las t mb 0 (the_filter keep) tt fuel F = Ok (fs ++ [G]) /\ Forall (fun g => mb * 2 ^ 20 < Z.of_nat (length g)) fs.
Proof.
  intros t F keep fuel mb TT HT HK Hm Hf. destruct (C63_split_partial t F keep fuel mb 0 TT HT HK ltac:(right; lia) Hf) as (r & gs & G & E & EL & S1 & S2 & _).
  exists gs, G. split; [exact EL|].
  pose proof HT as ((HA & HP) & _). pose proof HA as (HF & _ & _ & HC). destruct (fields_nonneg F (proj1 HF)) as (_ & _ & RL0).
  assert (RL : 0 < f_reclen F < 2 ^ 16) by (split; [apply HC|apply RL0]).
  assert (LM : limit mb = mb * 2 ^ 20) by (unfold limit; cbv zeta; rewrite Z.mod_small by lia; destruct (Z.leb_spec (mb * 2 ^ 20) (2 ^ 31)); lia).
  assert (QE : quota F mb 0 = mb * 2 ^ 20 / f_reclen F + 1) by (unfold quota; rewrite LM; reflexivity).
  assert (KP : 0 < quota F mb 0) by (apply (quota_pos F mb 0 RL); right; lia). rewrite QE in *. set (ds := delivered F (r_hdr r) keep) in *.
  apply Forall_forall. intros g Hg. apply In_nth_error in Hg. destruct Hg as (i & Hi). pose proof (S2 i g Hi) as (((SA & _) & SR & _) & _ & _ & FN).
  pose proof SA as (SF & _ & _ & SC). destruct (fields_nonneg g (proj1 SF)) as (D0 & N0 & _).
  assert (IL : (i < length gs)%nat) by (apply nth_error_Some; congruence).
  set (k := mb * 2 ^ 20 / f_reclen F + 1) in *.
  assert (LC : length (firstn (Z.to_nat k) (skipn (i * Z.to_nat k) ds)) = Z.to_nat k).
  { rewrite firstn_length, skipn_length. pose proof (Z.div_mod (Z.of_nat (length ds)) k ltac:(lia)) as DM. pose proof (Z.mod_pos_bound (Z.of_nat (length ds)) k ltac:(lia)). nia. }
  assert (NG : f_npts g = k).
  { pose proof (f_equal (@List.length _) SR) as X. rewrite LC in X. unfold records_from in X. rewrite map_length, seq_length in X. lia. }
  assert (RE : f_reclen g = f_reclen F).
  { assert (NE : firstn (Z.to_nat k) (skipn (i * Z.to_nat k) ds) <> []) by (intros X; rewrite X in LC; cbn [List.length] in LC; lia).
    destruct (FN NE) as (mx & mn & rns & _ & _ & P). change (f_reclen g) with (ph_reclen (pub_of_file g)). rewrite P. unfold twice. destruct (_ =? _); reflexivity. }
  destruct SC as (_ & SC). rewrite NG, RE in SC. specialize (SC ltac:(lia)).
  pose proof (Z.div_mod (mb * 2 ^ 20) (f_reclen F) ltac:(lia)) as DM. pose proof (Z.mod_pos_bound (mb * 2 ^ 20) (f_reclen F) ltac:(lia)). unfold k in *. nia.
Qed.
Print Assumptions C63_size_refuted.

(** With more than 2048 MB (up to 4095) the 32 bit counter is negative from the
    start: one point per file. *)
Theorem C63_large_limit_refuted : forall t F fuel mb, real_tool t -> translatable F -> 2048 < mb < 4096 -> (Z.to_nat (f_npts F) < fuel)%nat ->
  exists fs, las2las t mb 0 no_filter tt fuel F = Ok fs /\ Z.of_nat (length fs) = f_npts F + 1 /\ Forall (fun g => f_npts g <= 1) fs.
Proof.
  intros t F fuel mb TT HT Hm Hf.
  pose proof HT as ((HA & HP) & _). pose proof HA as (HF & _ & _ & HC). destruct (fields_nonneg F (proj1 HF)) as (_ & N0 & RL0).
  assert (QE : quota F mb 0 = 1).
  { unfold quota. change (0 <? 0) with false. cbv iota. assert (LM : limit mb = 0) by (unfold limit; cbv zeta; rewrite Z.mod_small by lia; destruct (Z.leb_spec (mb * 2 ^ 20) (2 ^ 31)); lia).
    rewrite LM, Z.div_0_l by (destruct HC; lia). reflexivity. }
  destruct (C63_split_partial t F None fuel mb 0 TT HT ltac:(intros X; now destruct X) ltac:(right; lia) Hf) as (r & gs & G & E & EL & S1 & _).
  destruct (C63_nothing_lost t F None fuel mb 0 TT HT ltac:(intros X; now destruct X) ltac:(right; lia) Hf) as (r' & fs & E' & EL' & _ & NQ).
  rewrite EL in EL'. apply Writer_Append.Ok_inj in EL'. subst fs. exists (gs ++ [G]). split; [exact EL|]. rewrite QE in *. split; [|exact NQ].
  rewrite app_length. cbn [List.length]. rewrite Nat2Z.inj_add, S1, Z.div_1_r. cbn [delivered]. unfold records_from. rewrite map_length, seq_length. lia.
Qed.
Print Assumptions C63_large_limit_refuted.

Example C63_instance : split_ok 0 2 /\ split_ok 3000 0 /\ quota (gapped 2 0) 0 2 = 2 /\ quota (gapped 2 0) 1 0 = 52429 /\ quota (gapped 2 0) 3000 0 = 1 /\
  (forall t, real_tool t -> exists fs, las2las t 0 2 no_filter tt 5 (gapped 2 0) = Ok fs /\ length fs = 2%nat).
Proof.
  split; [left; lia|]. split; [right; lia|]. split; [reflexivity|]. split; [vm_compute; reflexivity|]. split; [vm_compute; reflexivity|].
  intros t TT. assert (HN : f_npts (gapped 2 0) = 3) by (vm_compute; reflexivity).
  destruct (C63_split_partial t (gapped 2 0) None 5 0 2 TT) as (r & gs & G & E & EL & S1 & _);
    [apply gapped_translatable; cbn; tauto|intros X; now destruct X|left; lia|rewrite HN; cbn; lia|].
  exists (gs ++ [G]). split; [exact EL|]. rewrite app_length. cbn [List.length delivered] in *. unfold records_from in S1. rewrite map_length, seq_length, HN in S1.
  change (Z.of_nat (Z.to_nat (3 - 0)) / quota (gapped 2 0) 0 2) with 1 in S1. lia.
Qed.

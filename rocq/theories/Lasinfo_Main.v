(** The figures of the summary of the records of a file. *)
From Coq Require Import ZArith List Bool Lia Lra String Ascii Reals.
From Coq Require Import ZifyBool ZifyNat.
Import ListNotations.
From Flocq Require Import Core BinarySingleNaN Binary Bits.
From Verif Require Import Outcome Bytes Float64 Float64_Proofs Classif_Model Schema_Model Schema_Spec Schema_Proofs Header_Model Point_Model Point_Spec Point_Api Point_Proofs Point_Hist
  Coord_Api Coord_Proofs Coord_Header Stream_Model IO_Spec Reader_Proofs Reader_Model Reader_Spec Reader_Schema Reader_Api Reader_Open Reader_Hist Rewrite_Proofs Prop_Rewrite Prop_Reader Writer_Api
  Summary_Model Summary_Spec Summary_Proofs Prop_Summary Text_Model Text_Proofs Las2las_Spec Las2las_Model Las2las_Summary Las2las_Points Las2las_Main Las2las_Loop Las2las_Split
  Cols_Spec Cols_Proofs Prop_Cols Txt_Model Txt_Spec Txt_Proofs Lasinfo_Spec Lasinfo_Model Lasinfo_Proofs.
Local Open Scope string_scope.
Local Open Scope list_scope.
Local Open Scope Z_scope.
Local Notation length := List.length (only parsing).

(** ** Lists of counts *)
Lemma nonzero_tallied l : forall k vs, (forall i, k <= i < k + Z.of_nat (length l) -> nth (Z.to_nat (i - k)) l 0 = number_of (Z.eqb i) vs) -> 0 <= k ->
  nonzero_from k l = tallied (map Z.of_nat (seq (Z.to_nat k) (length l))) vs.
Proof.
  induction l as [|x l IH]; intros k vs T K; [reflexivity|]. cbn [nonzero_from List.length seq map] in *. unfold tallied in *. cbn [map filter snd].
  pose proof (T k ltac:(lia)) as T0. rewrite Z.sub_diag in T0. cbn [nth Z.to_nat] in T0. rewrite Z2Nat.id by lia. rewrite <- T0.
  assert (R : nonzero_from (k + 1) l = filter (fun e => negb (snd e =? 0)) (map (fun i => (i, number_of (Z.eqb i) vs)) (map Z.of_nat (seq (S (Z.to_nat k)) (length l))))).
  { rewrite (IH (k + 1) vs); [|intros i Hi; rewrite <- (T i) by lia; replace (Z.to_nat (i - k)) with (S (Z.to_nat (i - (k + 1)))) by lia; reflexivity|lia].
    now replace (Z.to_nat (k + 1)) with (S (Z.to_nat k)) by lia. }
  rewrite R. destruct (x =? 0); reflexivity.
Qed.

(** ** Printed numbers *)
Section Real.
Local Open Scope R_scope.
Lemma real_shown p x : f64_fin x = true -> Rabs (f64_R x) <= bpow radix2 999 -> exists t, real text16 p x = Ok t /\ shows_real p x t.
Proof.
  intros Fx Bx. destruct (text16_close x Fx Bx) as (y & E & Fy & C). destruct (fixed_number p y Fy) as (m & N & D). exists (fixed_text p y).
  unfold real. rewrite E. split; [reflexivity|]. exists m. split; [exact N|]. unfold nearest_decimal in D.
  assert (P : 0 < 10 ^ p) by (apply pow_lt; lra). 
  assert (D2 : Rabs (IZR m / 10 ^ p - f64_R y) <= / 2 / 10 ^ p).
  { replace (IZR m / 10 ^ p - f64_R y) with ((IZR m - f64_R y * 10 ^ p) / 10 ^ p) by (field; lra). unfold Rdiv. rewrite Rabs_mult, (Rabs_pos_eq (/ 10 ^ p)) by (left; now apply Rinv_0_lt_compat).
    apply Rmult_le_compat_r; [left; now apply Rinv_0_lt_compat|exact D]. }
  replace (IZR m / 10 ^ p - f64_R x) with ((IZR m / 10 ^ p - f64_R y) + (f64_R y - f64_R x)) by ring.
  eapply Rle_trans; [apply Rabs_triang|]. rewrite Rplus_assoc. apply Rplus_le_compat; assumption.
Qed.
End Real.

Lemma le_not_lt a b : f64_fin a = true -> f64_fin b = true -> f64_le a b = true -> f64_lt b a = false.
Proof.
  intros Fa Fb L. apply f64_le_R in L; [|exact Fa|exact Fb]. destruct (f64_lt b a) eqn:E; [|reflexivity]. apply f64_lt_R in E; [|exact Fb|exact Fa]. lra.
Qed.

(** ** Letters as quantities *)
Definition letter_quantity (c : ascii) : quantity :=
  match c with
  | "r" => QAttr AReturnNumber | "n" => QAttr ANumberOfReturns | "e" => QAttr AFlightLineEdge | "i" => QAttr AIntensity | "d" => QAttr AScanDirection
  | "a" => QAttr AScanAngleRank | "p" => QAttr APointSourceId | "u" => QAttr AUserData | "R" => QAttr ARed | "G" => QAttr AGreen | "B" => QAttr ABlue
  | _ => QClass
  end%char.
Lemma letter_summarised c : summarised (letter_quantity c).
Proof. destruct c as [[|] [|] [|] [|] [|] [|] [|] [|]]; exact I. Qed.

Section Values.
Variables (F : list Z) (h : header).
Lemma letter_value rec c : of_file F h rec -> In c whole_letters -> present (fmt F) (letter_quantity c) -> q_get (letter_quantity c) (mkPoint rec h) = Ok (whole_of F c rec).
Proof.
  intros H I P. unfold whole_letters, lit in I. cbn [list_ascii_of_string In] in I.
  repeat match goal with K : _ \/ _ |- _ => destruct K as [K|K] end; try contradiction; subst c; cbn [letter_quantity q_get present] in *; unfold whole_of; cbn [whole_letter];
    try (apply (unsigned_value F h rec H); eexists _, _; reflexivity).
  - pose proof H as (W & _). exact (api_get_spec _ AScanAngleRank 128 8 true W eq_refl).
  - rewrite (class_value F h rec H). cbn [obind]. now rewrite Txt_Proofs.class_get_mod.
  - cbn [api_get]. rewrite (color_value' F h rec H). reflexivity.
  - cbn [api_get]. rewrite (color_value' F h rec H). reflexivity.
  - cbn [api_get]. rewrite (color_value' F h rec H). reflexivity.
Qed.
Lemma letter_absent rec c : In c whole_letters -> ~ present (fmt F) (letter_quantity c) -> whole_of F c rec = 0.
Proof.
  intros Hi P. unfold whole_letters, lit in Hi. cbn [list_ascii_of_string In] in Hi.
  repeat match goal with K : _ \/ _ |- _ => destruct K as [K|K] end; try contradiction; subst c; cbn [letter_quantity present] in P; try (exfalso; apply P; discriminate); try (exfalso; apply P; exact I);
    unfold whole_of; cbn [whole_letter]; unfold field; destruct (attr_range (fmt F) _) eqn:E; try reflexivity; exfalso; apply P; discriminate.
Qed.
Lemma present_dec c : present (fmt F) (letter_quantity c) \/ ~ present (fmt F) (letter_quantity c).
Proof. destruct (letter_quantity c) as [a|]; [|left; exact I]. cbn [present]. destruct (attr_range (fmt F) a); [left; discriminate|right; intros X; now apply X]. Qed.

Lemma values_points {V} (get : point -> outcome V) f l : (forall d, of_file F h d -> get (mkPoint d h) = Ok (f d)) -> Forall (of_file F h) l -> values_of get (points_of h l) (map f l).
Proof. intros G. unfold points_of, values_of. induction 1 as [|d l Hd Hl IH]; cbn [map]; [apply Forall2_nil|apply Forall2_cons; [now apply G|exact IH]]. Qed.

Variables (ds : list (list Z)) (dmn dmx : list Z).
Hypothesis OF : Forall (of_file F h) ds.
Hypothesis Nds : ds <> [].
Hypothesis Omn : of_file F h dmn.
Hypothesis Omx : of_file F h dmx.

Lemma values_letter c : In c whole_letters -> present (fmt F) (letter_quantity c) -> values_of (q_get (letter_quantity c)) (points_of h ds) (map (whole_of F c) ds).
Proof.
  intros I P. apply values_points; [intros; now apply letter_value|exact OF].
Qed.
Lemma whole_extremes c : In c whole_letters ->
  (forall q vs, summarised q -> present (fmt F) q -> values_of (q_get q) (points_of h ds) vs ->
     exists lo hi, q_get q (mkPoint dmn h) = Ok lo /\ q_get q (mkPoint dmx h) = Ok hi /\ least vs lo /\ greatest vs hi) ->
  least (map (whole_of F c) ds) (whole_of F c dmn) /\ greatest (map (whole_of F c) ds) (whole_of F c dmx).
Proof.
  intros I Q. destruct (present_dec c) as [P|P].
  - destruct (Q _ _ (letter_summarised c) P (values_letter c I P)) as (lo & hi & E1 & E2 & L & G).
    rewrite (letter_value dmn c Omn I P) in E1. rewrite (letter_value dmx c Omx I P) in E2. apply Writer_Append.Ok_inj in E1, E2. subst. auto.
  - rewrite !(letter_absent _ c I P). assert (E : map (whole_of F c) ds = map (fun _ => 0) ds) by (apply map_ext; intros; now apply letter_absent).
    rewrite E. destruct ds as [|d l]; [contradiction|]. split; (split; [now left|]); intros v Hv; apply in_map_iff in Hv; destruct Hv as (? & <- & _); lia.
Qed.

Hypothesis SS : sane_scaling F.
Lemma scaling_ax ax : scale_ok (file_scale F ax) /\ f64_lt f64_zero (file_scale F ax) = true /\ offset_ok (file_offset F ax).
Proof. unfold file_scale, file_offset. apply (SS (place ax)). destruct ax; cbn; lia. Qed.
Lemma raw_signed rec ax : of_file F h rec -> in_signed 32 (raw_value (raw_attr ax) rec).
Proof.
  intros H. destruct (raw_get (mkPoint rec h) ax (proj1 H)) as (v & E & R). rewrite (raw_is F h rec ax H) in E. apply Writer_Append.Ok_inj in E. now rewrite E.
Qed.
Lemma coordinate_fin rec ax : of_file F h rec -> f64_fin (coordinate F ax rec) = true /\ (Rabs (f64_R (coordinate F ax rec)) <= bpow radix2 999)%R.
Proof.
  intros H. destruct (scaling_ax ax) as (A & _ & B). destruct (descale_R _ _ _ A B (raw_signed rec ax H)) as (X & _ & Y). split; [exact X|exact Y].
Qed.
Lemma coordinate_le r1 r2 ax : of_file F h r1 -> of_file F h r2 -> raw_value (raw_attr ax) r1 <= raw_value (raw_attr ax) r2 -> f64_lt (coordinate F ax r2) (coordinate F ax r1) = false.
Proof.
  intros H1 H2 L. destruct (scaling_ax ax) as (A & P & B). apply le_not_lt; [now apply coordinate_fin|now apply coordinate_fin|].
  apply (descale_le _ _ _ _ A P B); [now apply raw_signed|now apply raw_signed|exact L].
Qed.
Lemma coordinate_extremes ax :
  (forall q vs, summarised q -> present (fmt F) q -> values_of (q_get q) (points_of h ds) vs ->
     exists lo hi, q_get q (mkPoint dmn h) = Ok lo /\ q_get q (mkPoint dmx h) = Ok hi /\ least vs lo /\ greatest vs hi) ->
  least_f (map (coordinate F ax) ds) (coordinate F ax dmn) /\ greatest_f (map (coordinate F ax) ds) (coordinate F ax dmx).
Proof.
  intros Q. assert (V : values_of (q_get (QAttr (raw_attr ax))) (points_of h ds) (map (raw_value (raw_attr ax)) ds)).
  { apply values_points; [intros; now apply (raw_is F)|exact OF]. }
  destruct (Q (QAttr (raw_attr ax)) _ ltac:(destruct ax; exact I) ltac:(cbn [present]; apply raw_present) V) as (lo & hi & E1 & E2 & (L1 & L2) & (G1 & G2)).
  cbn [q_get] in E1, E2. rewrite (raw_is F h dmn ax Omn) in E1. rewrite (raw_is F h dmx ax Omx) in E2. apply Writer_Append.Ok_inj in E1, E2. subst lo hi.
  pose proof OF as OF'. rewrite Forall_forall in OF'. split.
  - split.
    + apply in_map_iff in L1. destruct L1 as (d & E & I). apply in_map_iff. exists d. split; [|exact I]. unfold coordinate. now rewrite E.
    + intros v Hv. apply in_map_iff in Hv. destruct Hv as (d & <- & I). apply coordinate_le; [exact Omn|now apply OF'|]. apply L2, in_map, I.
  - split.
    + apply in_map_iff in G1. destruct G1 as (d & E & I). apply in_map_iff. exists d. split; [|exact I]. unfold coordinate. now rewrite E.
    + intros v Hv. apply in_map_iff in Hv. destruct Hv as (d & <- & I). apply coordinate_le; [now apply OF'|exact Omx|]. apply G2, in_map, I.
Qed.
Lemma time_of rec : of_file F h rec -> get_time (mkPoint rec h) = Ok (real_of F "t"%char rec).
Proof. intros H. exact (time_value F h rec H). Qed.
Lemma time_extremes :
  (forall ts, attr_range (fmt F) ATime <> None -> values_of get_time (points_of h ds) ts ->
       exists lo hi, get_time (mkPoint dmn h) = Ok lo /\ get_time (mkPoint dmx h) = Ok hi /\ least_f ts lo /\ greatest_f ts hi) ->
  least_f (map (real_of F "t"%char) ds) (real_of F "t"%char dmn) /\ greatest_f (map (real_of F "t"%char) ds) (real_of F "t"%char dmx).
Proof.
  intros Q. destruct (attr_range (fmt F) ATime) as [r|] eqn:R.
  - destruct (Q (map (real_of F "t"%char) ds)) as (lo & hi & E1 & E2 & L & G); [discriminate| |].
    { apply values_points; [intros; now apply time_of|exact OF]. }
    rewrite (time_of dmn Omn) in E1. rewrite (time_of dmx Omx) in E2. apply Writer_Append.Ok_inj in E1, E2. subst. auto.
  - assert (T : forall d, real_of F "t"%char d = f64_of_bits 0) by (intros d; unfold real_of; cbn [real_letter]; unfold field; now rewrite R).
    rewrite !T. rewrite (map_ext _ (fun _ => f64_of_bits 0) T). destruct ds as [|d l]; [contradiction|].
    split; (split; [now left|]); intros v Hv; apply in_map_iff in Hv; destruct Hv as (? & <- & _); vm_compute; reflexivity.
Qed.
End Values.

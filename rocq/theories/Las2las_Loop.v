(** The loop of las2las as: read everything, then feed the points. *)
From Coq Require Import ZArith List Bool Lia String.
From Coq Require Import ZifyBool ZifyNat.
Import ListNotations.
From Verif Require Import Outcome Bytes Float64 Vlr_Model Schema_Model Header_Model Point_Model Stream_Model
  IO_Spec Reader_Model Reader_Spec Reader_Api Reader_Open Reader_Hist Reader_Filter Writer_Model Writer_Api Prop_Reader Iter_Proofs
  Las2las_Model Las2las_Summary.
Local Open Scope Z_scope.
Local Notation length := List.length (only parsing).

Fixpoint feed (t : tool) (h : header) (mb sp : Z) (l : loop) (ps : list point) : outcome loop :=
  match ps with [] => Ok l | p :: ps => let! l := one_point t h mb sp l p in feed t h mb sp l ps end.

Lemma counted_hdr r r1 a : read_counted r = (r1, a) -> r_hdr r1 = r_hdr r.
Proof.
  unfold read_counted. destruct (read_record _ _ _) as [[d s]|e|u]; [|destruct e|]; intros E; apply (f_equal fst) in E; cbn [fst] in E; now subst r1.
Qed.
Lemma loop_hdr {FS} (f : FS -> point -> bool * FS) n : forall r fs r1 fs1 a, filter_loop f n r fs = ((r1, fs1), a) -> r_hdr r1 = r_hdr r.
Proof.
  induction n as [|n IH]; intros r fs r1 fs1 a E; cbn [filter_loop] in E; [injection E; intros; now subst|].
  destruct (f fs (r_point r)) as [k fs2]. destruct k; [injection E; intros; now subst|].
  destruct (read_counted r) as [r2 b] eqn:C. pose proof (counted_hdr _ _ _ C) as H. destruct b as [u|e|u]; try (injection E; intros; subst; exact H).
  destruct (r_current r2 =? r_size r2); [injection E; intros; subst; exact H|]. now rewrite (IH _ _ _ _ _ E).
Qed.
Lemma next_hdr {FS} (flt : option (FS -> point -> bool * FS)) tr r fs r1 fs1 a : reader_next flt tr r fs = ((r1, fs1), a) -> r_hdr r1 = r_hdr r.
Proof.
  unfold reader_next. destruct (impl_next flt tr r fs) as [[r2 fs2] b] eqn:E. intros N.
  assert (r1 = r2) by (destruct b as [u|e|u]; [|destruct e|]; injection N; intros; congruence). subst r2. clear N.
  unfold impl_next in E. set (r0 := if r_current r =? 0 then _ else r) in E.
  assert (H0 : r_hdr r0 = r_hdr r) by (unfold r0; destruct (r_current r =? 0); reflexivity). clearbody r0.
  destruct (r_size r0 <=? r_current r0); [injection E; intros; subst; exact H0|].
  destruct (read_counted r0) as [r3 c] eqn:C. pose proof (counted_hdr _ _ _ C) as H3. rewrite H0 in H3.
  destruct c as [u|e|u]; try (injection E; intros; subst; exact H3).
  destruct (filtered_part flt r3 fs) as [[r4 fs4] d] eqn:P.
  assert (H4 : r_hdr r4 = r_hdr r).
  { unfold filtered_part in P. destruct flt as [f|]; [|injection P; intros; subst; exact H3].
    destruct (f fs (r_point r3)) as [k fs5]. destruct k; [injection P; intros; subst; exact H3|].
    destruct (read_counted r3) as [r5 b5] eqn:C5. pose proof (counted_hdr _ _ _ C5) as H5. rewrite H3 in H5.
    destruct b5 as [v|e|v]; try (injection P; intros; subst; exact H5). now rewrite (loop_hdr _ _ _ _ _ _ _ P). }
  destruct d as [last|e|u1]; try (injection E; intros; subst; exact H4).
  destruct (tr (r_point r4)); injection E; intros; subst; exact H4.
Qed.

Lemma loop_feeds {FS} t h mb sp (flt : option (FS -> point -> bool * FS)) fuel : forall r fs l ds r1 fs1,
  read_all flt fuel r fs = Ok (ds, true, r1, fs1) ->
  point_loop t h mb sp flt fuel r fs l = (let! l' := feed t h mb sp l (map (fun d => mkPoint d (r_hdr r)) ds) in Ok (r1, l')).
Proof.
  induction fuel as [|fuel IH]; intros r fs l ds r1 fs1 E; cbn [read_all point_loop] in *; [discriminate|].
  change (fun p => Ok (p_data p)) with no_transform.
  destruct (reader_next flt no_transform r fs) as [[r2 fs2] a] eqn:N. pose proof (next_hdr _ _ _ _ _ _ _ N) as H.
  destruct a as [[|]|e|u]; try discriminate.
  - destruct (read_all flt fuel r2 fs2) as [[[[l0 b] r3] fs3]|e|u] eqn:R; try discriminate. cbn [obind] in E. injection E as <- -> -> ->.
    cbn [map feed]. change (r_point r2) with (mkPoint (r_data r2) (r_hdr r2)). rewrite H.
    destruct (one_point t h mb sp l (mkPoint (r_data r2) (r_hdr r))); cbn [obind]; try reflexivity. rewrite (IH _ _ _ _ _ _ R). now rewrite H.
  - injection E as <- <- <-. reflexivity.
Qed.

(** All records, without a filter. *)
Lemma read_plain fuel : forall F c d r, reads (F, c, d) r -> 0 <= c <= f_npts F -> (Z.to_nat (f_npts F - c) < fuel)%nat ->
  exists r1, read_all no_filter fuel r tt = Ok (records_from F c, true, r1, tt) /\ rinv F r1.
Proof.
  induction fuel as [|fuel IH]; intros F c d r R Hc Hf; [lia|]. cbn [read_all].
  destruct (next_reads F c d r R) as (r1 & E & R1 & _). rewrite E. destruct (Z.ltb_spec c (f_npts F)) as [L|L].
  - destruct (IH F (c + 1) (file_record F c) r1 R1 ltac:(lia) ltac:(lia)) as (r2 & E2 & I2). rewrite E2. cbn [obind].
    exists r2. split; [|exact I2]. rewrite (Iter_Proofs.records_from_step F c) by lia. now rewrite (proj2 (proj2 R1)).
  - exists r1. rewrite (Iter_Proofs.records_from_end F c) by lia. split; [reflexivity|]. destruct R1 as (_ & (I1 & _) & _). exact I1.
Qed.

Lemma feed_app t h mb sp a : forall l b, feed t h mb sp l (a ++ b) = (let! l := feed t h mb sp l a in feed t h mb sp l b).
Proof. induction a as [|p a IH]; intros l b; cbn [app feed]; [reflexivity|]. destruct (one_point t h mb sp l p); cbn [obind]; [apply IH|reflexivity|reflexivity]. Qed.

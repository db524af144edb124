(** las2las --min-offset: the new offsets, and one record moved. *)
From Coq Require Import ZArith List Bool Lia Lra String Reals.
From Coq Require Import ZifyBool ZifyNat.
Import ListNotations.
From Flocq Require Import Core.
From Verif Require Import Outcome Bytes Float64 Float64_Proofs Schema_Model Header_Model Point_Model Point_Spec Point_Api Point_Proofs Point_Hist
  Coord_Api Coord_Proofs Coord_Header Stream_Model IO_Spec Reader_Proofs Reader_Spec Reader_Schema Reader_Api Reader_Open Rewrite_Proofs Prop_Rewrite
  Summary_Spec Text_Model Text_Proofs Las2las_Spec Las2las_Summary Las2las_Points Cols_Spec Cols_Proofs Txt_Spec Lasinfo_Spec Lasinfo_Main Hdropt_Spec Minoff_Spec.
Local Open Scope Z_scope.
Local Notation length := List.length (only parsing).

Section Number.
Local Open Scope R_scope.
Lemma number_core s o0 A0 A m o x : 0 < s -> Rabs o0 <= 281474976710656 * s -> Rabs A0 <= 2147483648 * s -> Rabs (A - A0) <= 2147482624 * s ->
  Rabs (m - (A0 + o0)) <= s * / 1048576 + u64 * Rabs o0 -> Rabs (x - (A + o0)) <= s * / 1048576 + u64 * Rabs o0 ->
  Rabs (o - m) <= / 1000000000000000 * Rabs m + s * / 1048576 ->
  Rabs o <= 1125899906842624 * s /\ Rabs (x - o) <= 2147483647 * s.
Proof.
  intros S B0 BA BD Em Ex Eo. unfold u64 in *.
  assert (U : / 9007199254740992 * Rabs o0 <= s * / 32) by lra.
  assert (Mm : Rabs m <= 281477124194305 * s).
  { replace m with ((m - (A0 + o0)) + (A0 + o0)) by ring. eapply Rle_trans; [apply Rabs_triang|]. pose proof (Rabs_triang A0 o0). lra. }
  assert (K : Rabs (o - m) <= s * / 2) by lra.
  apply Rabs_le_inv in K. split.
  - replace o with ((o - m) + m) by ring. eapply Rle_trans; [apply Rabs_triang|]. assert (Rabs (o - m) <= s * / 2) by (apply Rabs_le; exact K). lra.
  - apply Rabs_le_inv in BD. apply Rabs_le_inv in Em. apply Rabs_le_inv in Ex. apply Rabs_le. lra.
Qed.
Lemma tiny s : bpow radix2 (-900) <= s -> bpow radix2 (-1075) <= s * / 1048576.
Proof.
  intros H. change (/ 1048576) with (bpow radix2 (-20)). apply Rle_trans with (bpow radix2 (-900) * bpow radix2 (-20)).
  - rewrite <- bpow_plus. apply bpow_le. lia.
  - apply Rmult_le_compat_r; [apply bpow_ge_0|exact H].
Qed.
End Number.

Lemma raw_bound F h d ax : of_file F h d -> (Rabs (IZR (raw_value (raw_attr ax) d)) <= 2147483648)%R.
Proof.
  intros O. pose proof (raw_signed F h d ax O) as R. unfold in_signed in R. change (2 ^ (32 - 1)) with 2147483648 in R. rewrite <- abs_IZR. apply IZR_le. lia.
Qed.
Lemma new_offset F h ds ax m : sane_scaling F -> Forall (of_file F h) ds -> roomy F ds -> least_f (map (coordinate F ax) ds) m ->
  exists o, text16 m = Ok o /\ f64_fin o = true /\ (Rabs (f64_R o) <= 1125899906842624 * Rabs (f64_R (file_scale F ax)))%R /\
    forall d, In d ds -> storable (file_scale F ax) o (coordinate F ax d).
Proof.
  intros SS OF RM (I & _). apply in_map_iff in I. destruct I as (d0 & <- & I0). rewrite Forall_forall in OF.
  destruct (scaling_ax F SS ax) as (SO & P & OO). destruct (RM ax) as (BO & DR).
  destruct (coordinate_fin F h SS d0 ax (OF _ I0)) as (F0 & L0). destruct (text16_close _ F0 L0) as (o & E & Fo & C). exists o.
  pose proof SO as (Fs & Ls & _). apply f64_lt_R in P; [|reflexivity|exact Fs]. change (f64_R f64_zero) with 0%R in P.
  rewrite (Rabs_pos_eq (f64_R (file_scale F ax))) in * by lra.
  pose proof (tiny _ Ls) as T.
  assert (K : forall d, In d ds -> (Rabs (f64_R o) <= 1125899906842624 * f64_R (file_scale F ax) /\ Rabs (f64_R (coordinate F ax d) - f64_R o) <= 2147483647 * f64_R (file_scale F ax))%R).
  { intros d Id. pose proof (raw_bound F h d ax (OF _ Id)) as B. pose proof (raw_bound F h d0 ax (OF _ I0)) as B0.
    destruct (descale_err _ _ _ SO OO B) as (_ & D). destruct (descale_err _ _ _ SO OO B0) as (_ & D0).
    rewrite (Rabs_pos_eq (f64_R (file_scale F ax))) in * by lra.
    change (descale (file_scale F ax) (file_offset F ax) (raw_value (raw_attr ax) d)) with (coordinate F ax d) in D.
    change (descale (file_scale F ax) (file_offset F ax) (raw_value (raw_attr ax) d0)) with (coordinate F ax d0) in D0.
    pose proof (DR d d0 Id I0) as R1. pose proof (DR d0 d I0 Id) as R2.
    assert (RD : (Rabs (IZR (raw_value (raw_attr ax) d) - IZR (raw_value (raw_attr ax) d0)) <= 2147482624)%R).
    { rewrite <- minus_IZR, <- abs_IZR. apply IZR_le. change (2 ^ 31) with 2147483648 in *. lia. }
    set (s := f64_R (file_scale F ax)) in *. set (n := IZR (raw_value (raw_attr ax) d)) in *. set (n0 := IZR (raw_value (raw_attr ax) d0)) in *.
    eapply (number_core s (f64_R (file_offset F ax)) (n0 * s) (n * s) (f64_R (coordinate F ax d0))).
    - exact P.
    - exact BO.
    - rewrite Rabs_mult, (Rabs_pos_eq s) by lra. apply Rmult_le_compat_r; lra.
    - rewrite <- Rmult_minus_distr_r, Rabs_mult, (Rabs_pos_eq s) by lra. apply Rmult_le_compat_r; lra.
    - exact D0.
    - exact D.
    - lra. }
  split; [exact E|]. split; [exact Fo|]. split; [apply (K d0 I0)|]. intros d Id. split; [apply (coordinate_fin F h SS d ax (OF _ Id))|].
  rewrite (Rabs_pos_eq (f64_R (file_scale F ax))) by lra. apply (K d Id).
Qed.

Lemma decode_inj sg w a b : 0 <= a < 2 ^ w -> 0 <= b < 2 ^ w -> decode_bits sg w a = decode_bits sg w b -> a = b.
Proof.
  intros A B E. destruct sg; [|exact E]. cbn [decode_bits] in E. unfold to_signed in E. rewrite !Z.mod_small in E by assumption.
  destruct (a <? 2 ^ (w - 1)) eqn:Ea, (b <? 2 ^ (w - 1)) eqn:Eb; lia.
Qed.
Lemma attr_width fmt a s w sg : attr_range fmt a = Some (s, w, sg) -> 0 <= w.
Proof. intros E. destruct a; cbn [attr_range] in E; repeat match type of E with context [if ?c then _ else _] => destruct c end; try discriminate; injection E as <- <- <-; lia. Qed.

Section Move.
Variables (F : list Z) (h h2 : header).
Hypothesis HP : plain_file F.
Hypothesis SS : sane_scaling F.
Hypothesis Sh : shows_file F h.
Hypothesis L2 : layout_ok h2.
Hypothesis RL : get_record_length h2 = f_reclen F.
Hypothesis FM : get_format h2 = u_at F 104 1.
Hypothesis TO : target_ok h2.
Hypothesis SC : forall ax, scale_of ax h2 = file_scale F ax.
Hypothesis CL : (forall ax, Coord_Api.offset_of ax h2 = file_offset F ax) \/
  exists ax, (bpow radix2 (-51) <= Rabs (f64_R (Coord_Api.offset_of ax h2) - f64_R (file_offset F ax)))%R.

Lemma quantum_nonneg s o : (0 <= quantum s o)%R.
Proof. unfold quantum, u64. pose proof (Rabs_pos (f64_R s)). pose proof (Rabs_pos (f64_R o)). lra. Qed.

Lemma same_fields d p' a : bytes_ok d -> Z.of_nat (length d) = f_reclen F -> point_wf p' -> p_hdr p' = h2 -> is_raw a = false ->
  (attr_range (get_format h2) a <> None -> api_get a p' = api_get a (mkPoint d h2)) -> field (fmt F) a (p_data p') = field (fmt F) a d.
Proof.
  intros B L W Hh R Q. unfold field. change (fmt F) with (u_at F 104 1). rewrite <- FM.
  destruct (attr_range (get_format h2) a) as [[[s w] sg]|] eqn:E; [|reflexivity]. specialize (Q ltac:(discriminate)).
  assert (W2 : point_wf (mkPoint d h2)) by (apply layout_point; [exact L2|exact B|now rewrite RL]).
  rewrite (api_get_spec p' a s w sg W) in Q by (unfold p_format; now rewrite Hh).
  rewrite (api_get_spec _ a s w sg W2 E) in Q. apply Writer_Append.Ok_inj in Q. unfold rec_int in Q. cbn [p_data] in Q.
  pose proof (attr_width _ _ _ _ _ E) as Wn. apply (decode_inj sg w); [now apply bits_at_range|now apply bits_at_range|exact Q].
Qed.

Lemma record_moved d : bytes_ok d -> Z.of_nat (length d) = f_reclen F ->
  (forall ax, storable (file_scale F ax) (Coord_Api.offset_of ax h2) (coordinate F ax d)) ->
  exists d', set_header (mkPoint d h) h2 = Ok (mkPoint d' h2) /\ bytes_ok d' /\ length d' = length d /\
    forall G, (forall ax, file_scale G ax = file_scale F ax) -> (forall ax, file_offset G ax = Coord_Api.offset_of ax h2) -> moved F G d d'.
Proof.
  intros B L ST. destruct (file_point F h d HP Sh B L) as (W & _).
  assert (SH : shows F h) by now apply file_shows. assert (OF : of_file F h d) by (split; assumption).
  destruct (list_eq_dec Z.eq_dec d (repeat 0 (length d))) as [Z0|NZ].
  - exists d. split; [|split; [exact B|split; [reflexivity|]]].
    + rewrite set_header_eq. cbn [p_data]. rewrite (proj2 (Z.eqb_eq _ _)) by (now apply zsum_zero). unfold point_new. rewrite RL, <- L, Nat2Z.id, <- Z0. reflexivity.
    + intros G _ _. split; [reflexivity|]. split; [reflexivity|]. split; [reflexivity|]. intros N. contradiction.
  - assert (CF : coords_fit (mkPoint d h) h2).
    { intros ax x E. rewrite (coord_is F h d ax OF) in E. apply Writer_Append.Ok_inj in E. subst x. rewrite SC. apply ST. }
    destruct (move_same_length (mkPoint d h) h2 W L2 TO CF NZ) as (p' & E & (P1 & P2 & P3) & MC & MS & MA & _); [cbn [p_data]; now rewrite RL|].
    destruct p' as [d' hh]. cbn [p_hdr p_data] in *. subst hh. exists d'. split; [exact E|]. split; [apply P2|]. split; [rewrite RL in P3; lia|]. intros G SG OG.
    split; [rewrite RL in P3; lia|]. split.
    { intros a R. apply (same_fields d (mkPoint d' h2) a B L P2 eq_refl R). intros N. now apply MA. }
    split; [intros X; contradiction|]. intros _ ax.
    assert (CG : get_coord ax (mkPoint d' h2) = Ok (coordinate G ax d')).
    { assert (RW : api_get (raw_attr ax) (mkPoint d' h2) = Ok (raw_value (raw_attr ax) d')).
      { assert (R : forall f, attr_range f (raw_attr ax) = attr_range 0 (raw_attr ax)) by (destruct ax; reflexivity).
        unfold raw_value. destruct (attr_range 0 (raw_attr ax)) as [[[s w] sg]|] eqn:Q; [|destruct ax; discriminate].
        rewrite (api_get_spec _ _ s w sg P2); [reflexivity|]. now rewrite R. }
      rewrite get_coord_raw, RW. cbn [obind p_hdr]. rewrite SC, <- SG, <- OG. reflexivity. }
    rewrite OG. destruct CL as [Cs|Cd].
    + assert (SD : scaling_differs h2 h = false).
      { destruct SH as (_ & SH). apply same_not_differs.
        - intros a. destruct (SH a) as (-> & ->). split; [apply SC|apply Cs].
        - intros a. destruct (SH a) as (-> & ->). destruct (scaling_ax F SS a) as ((X & _) & _ & (Y & _)). auto. }
      rewrite (MS SD). assert (EC : coordinate G ax d = coordinate F ax d) by (unfold coordinate; rewrite SG, OG, Cs; reflexivity).
      rewrite EC, Rminus_diag_eq, Rabs_R0 by reflexivity. apply quantum_nonneg.
    + assert (SD : scaling_differs h2 h = true).
      { destruct SH as (_ & SH). apply apart_differs; [exact TO| |].
        - intros a. destruct (SH a) as (-> & ->). destruct (scaling_ax F SS a) as (X & _ & Y). auto.
        - destruct Cd as (a & Da). exists a. right. destruct (SH a) as (_ & ->). exact Da. }
      destruct (MC SD ax _ (coord_is F h d ax OF)) as (x' & E' & BD). rewrite CG in E'. apply Writer_Append.Ok_inj in E'. subst x'. rewrite SC in BD. exact BD.
Qed.
End Move.

(** C78: a writer applies its filters and transforms.  Vocabulary: Wfilt_Spec.v. *)
From Coq Require Import ZArith List Bool Lia String.
Import ListNotations.
From Verif Require Import Outcome Bytes Float64 Float64_Proofs CStr Vlr_Model Schema_Model Header_Model Point_Model Stream_Model Stream_Proofs
  Writer_Model IO_Spec Writer_Api Reader_Model Reader_Spec Reader_Api Reader_Hist Reader_Vlrs Writer_Proofs Writer_File Writer_RT Writer_Append
  IO_Round IO_Extra IO_Samples Wfilt_Model Wfilt_Spec.
Local Open Scope Z_scope.
Local Notation length := List.length (only parsing).

Lemma calls_app sv : forall cs f g, fw_calls sv f (cs ++ g) = (let! f := fw_calls sv f cs in fw_calls sv f g).
Proof. induction cs as [|c cs IH]; intros f g; cbn [fw_calls app]; [reflexivity|]. destruct (fw_call sv f c); cbn [obind]; auto. Qed.
(** only the inner writer matters *)
Lemma calls_bare sv cs : forall f g, fw_writer f = fw_writer g ->
  (let! f := fw_calls sv f cs in Ok (fw_writer f)) = (let! g := fw_calls sv g (bare cs) in Ok (fw_writer g)).
Proof.
  induction cs as [|c cs IH]; intros f g E; cbn [fw_calls bare filter]; [cbn [obind]; now rewrite E|].
  destruct c as [l|l|p|]; cbn [setter negb fw_call obind].
  - now apply IH.
  - now apply IH.
  - cbn [fw_calls fw_call]. unfold fw_write_point. rewrite E. destruct (write_point (fw_writer g) p) as [w| |]; cbn [obind]; [now apply IH|reflexivity|reflexivity].
  - cbn [fw_calls fw_call]. unfold fw_write_header. rewrite E. destruct (writer_write_header sv (fw_writer g)) as [w| |]; cbn [obind]; [now apply IH|reflexivity|reflexivity].
Qed.
Lemma calls_points sv cs : forall f, Forall (fun c => rewrites c = false) cs ->
  (let! f := fw_calls sv f cs in Ok (fw_writer f)) = write_points (fw_writer f) (handed cs).
Proof.
  induction cs as [|c cs IH]; intros f H; [reflexivity|]. pose proof (Forall_inv H) as H1. apply Forall_inv_tail in H.
  destruct c as [l|l|p|]; cbn [fw_calls fw_call obind handed write_points]; try discriminate.
  - now rewrite IH.
  - now rewrite IH.
  - unfold fw_write_point. destruct (write_point (fw_writer f) p) as [w| |]; cbn [obind]; [|reflexivity|reflexivity]. now rewrite IH.
Qed.
Lemma session_inner sv old h cs : fw_session sv old h cs =
  (let! w := writer_new sv (os_open old) h in let! w := (let! f := fw_calls sv (mkFWriter w [] []) cs in Ok (fw_writer f)) in writer_close w).
Proof.
  unfold fw_session, fw_new. destruct (writer_new sv (os_open old) h) as [w| |]; cbn [obind]; [|reflexivity|reflexivity].
  destruct (fw_calls sv (mkFWriter w [] []) cs); reflexivity.
Qed.

(** For every history: setting filters and transforms changes nothing in the file. *)
Theorem C78_ignored : forall sv old h cs, fw_session sv old h cs = fw_session sv old h (bare cs).
Proof.
  intros sv old h cs. rewrite !session_inner. destruct (writer_new sv (os_open old) h) as [w| |]; cbn [obind]; [|reflexivity|reflexivity].
  now rewrite (calls_bare sv cs (mkFWriter w [] []) (mkFWriter w [] []) eq_refl).
Qed.
Print Assumptions C78_ignored.
(** Every point handed over is written, as it is. *)
Theorem C78_all_written : forall sv old h cs, Forall (fun c => rewrites c = false) cs -> fw_session sv old h cs = write_session sv old h (handed cs).
Proof.
  intros sv old h cs H. rewrite session_inner. unfold write_session. destruct (writer_new sv (os_open old) h) as [w| |]; cbn [obind]; [|reflexivity|reflexivity].
  now rewrite (calls_points sv cs (mkFWriter w [] []) H).
Qed.
Print Assumptions C78_all_written.
(** The getters return what was set last. *)
Theorem C78_getters : forall sv cs f f', fw_calls sv f cs = Ok f' ->
  fw_get_filters f' = last_filters (fw_get_filters f) cs /\ fw_get_transforms f' = last_transforms (fw_get_transforms f) cs.
Proof.
  intros sv. induction cs as [|c cs IH]; intros f f' E; cbn [fw_calls] in E; [apply Ok_inj in E; subst; split; reflexivity|].
  destruct (fw_call sv f c) as [g| |] eqn:C; try discriminate. cbn [obind] in E. destruct (IH _ _ E) as (A & B).
  assert (K : forall (o : outcome writer), (let! w := o in Ok (mkFWriter w (fw_filters f) (fw_transforms f))) = Ok g -> fw_filters g = fw_filters f /\ fw_transforms g = fw_transforms f).
  { intros [w| |] X; try discriminate. apply Ok_inj in X. subst g. split; reflexivity. }
  destruct c as [l|l|p|]; cbn [fw_call last_filters last_transforms] in *.
  - apply Ok_inj in C. subst g. exact (conj A B).
  - apply Ok_inj in C. subst g. exact (conj A B).
  - apply K in C. unfold fw_get_filters, fw_get_transforms in *. destruct C as (<- & <-). exact (conj A B).
  - apply K in C. unfold fw_get_filters, fw_get_transforms in *. destruct C as (<- & <-). exact (conj A B).
Qed.
Print Assumptions C78_getters.

Lemma idle_asked cs : forall fs ts, idle fs ts cs -> asked fs ts cs = Ok (handed cs).
Proof.
  induction cs as [|c cs IH]; intros fs ts H; [reflexivity|]. destruct c as [l|l|p|]; cbn [idle asked handed] in *; try (now apply IH).
  destruct H as (A & B & C). rewrite A, B. cbn [obind]. rewrite (IH _ _ C). reflexivity.
Qed.
(** The file is the one asked for exactly when there is nothing to do: ... *)
Theorem C78_idle_partial : forall sv old h cs, Forall (fun c => rewrites c = false) cs -> idle [] [] cs ->
  exists ps, asked [] [] cs = Ok ps /\ fw_session sv old h cs = write_session sv old h ps.
Proof. intros sv old h cs H I. exists (handed cs). split; [now apply idle_asked|now apply C78_all_written]. Qed.
Print Assumptions C78_idle_partial.

Lemma file_count sv h ps : session_ok sv h ps -> exists G, write_file sv h ps = Ok G /\ f_npts G = Z.of_nat (length ps).
Proof.
  intros HS. destruct (reopen sv (fun _ => Throw ERuntime) 1 2012 h ps HS) as (E & _ & _ & _ & r & _ & Hi & _ & EP & _).
  exists (file_image sv h ps). split; [exact E|]. destruct Hi as ((P & _) & _). rewrite P in EP. exact (f_equal ph_npts EP).
Qed.
(** ... a filter that turns away any handed point is disobeyed, in every session. *)
Theorem C78_filter_refuted : forall sv h cs ps, Forall (fun c => rewrites c = false) cs -> session_ok sv h (handed cs) ->
  asked [] [] cs = Ok ps -> length ps <> length (handed cs) ->
  exists G, fw_session sv [] h cs = Ok G /\ f_npts G = Z.of_nat (length (handed cs)) /\ forall G', write_file sv h ps = Ok G' -> session_ok sv h ps -> G <> G'.
Proof.
  intros sv h cs ps H HS A N. destruct (file_count sv h (handed cs) HS) as (G & E & C). exists G. rewrite C78_all_written by exact H. split; [exact E|]. split; [exact C|].
  intros G' E' HS' X. subst G'. destruct (file_count sv h ps HS') as (G2 & E2 & C2). rewrite E' in E2. apply Ok_inj in E2. subst G2. lia.
Qed.
Print Assumptions C78_filter_refuted.
(** ... and so is a transform that changes the record of any point, in every session. *)
Theorem C78_transform_refuted : forall sv h cs ps i p q, Forall (fun c => rewrites c = false) cs -> session_ok sv h (handed cs) ->
  asked [] [] cs = Ok ps -> session_ok sv h ps -> nth_error (handed cs) i = Some p -> nth_error ps i = Some q ->
  record_of (get_record_length h) p <> record_of (get_record_length h) q ->
  exists G G', fw_session sv [] h cs = Ok G /\ write_file sv h ps = Ok G' /\
    file_record G (Z.of_nat i) = record_of (get_record_length h) p /\ file_record G' (Z.of_nat i) = record_of (get_record_length h) q /\ G <> G'.
Proof.
  intros sv h cs ps i p q H HS A HQ P Q N.
  assert (K : forall l x, session_ok sv h l -> nth_error l i = Some x -> write_file sv h l = Ok (file_image sv h l) /\ file_record (file_image sv h l) (Z.of_nat i) = record_of (get_record_length h) x).
  { intros l x HL X. split; [apply (reopen sv (fun _ => Throw ERuntime) 1 2012 h l HL)|].
    destruct (core_parts sv h l (session_core_ok sv h l HL)) as (HF & (L1 & L2 & L3 & L4 & L5) & Hn & HP & HB). apply written_record; assumption || lia. }
  destruct (K _ _ HS P) as (E1 & R1). destruct (K _ _ HQ Q) as (E2 & R2).
  exists (file_image sv h (handed cs)), (file_image sv h ps). rewrite C78_all_written by exact H. split; [exact E1|]. split; [exact E2|]. split; [exact R1|]. split; [exact R2|].
  intros X. rewrite X in R1. congruence.
Qed.
Print Assumptions C78_transform_refuted.

(** Witnesses: a filter that turns everything away, a transform that replaces the
    first point by another, and an idle history. *)
Definition inst_h : header := sample_header 2.
Definition reject : pfilter := fun _ => false.
Definition to_18 : ptransform := fun _ => Ok (sample_point inst_h 18).
Definition filtered : list wcall := CFilters [reject] :: map CPoint (sample_points inst_h).
Definition transforming : list wcall := CTransforms [to_18] :: map CPoint (sample_points inst_h).
Definition idling : list wcall := CFilters [fun _ => true] :: CTransforms [fun p => Ok p] :: map CPoint (sample_points inst_h).
Theorem C78_instance :
  (session_ok no_sv inst_h (handed filtered) /\ asked [] [] filtered = Ok [] /\ session_ok no_sv inst_h [] /\ length (handed filtered) = 2%nat) /\
  (session_ok no_sv inst_h (handed transforming) /\ asked [] [] transforming = Ok [sample_point inst_h 18; sample_point inst_h 18] /\
   session_ok no_sv inst_h [sample_point inst_h 18; sample_point inst_h 18] /\
   record_of (get_record_length inst_h) (sample_point inst_h 17) <> record_of (get_record_length inst_h) (sample_point inst_h 18)) /\
  (idle [] [] idling /\ handed idling = sample_points inst_h) /\
  Forall (fun c => rewrites c = false) (filtered ++ transforming ++ idling).
Proof.
  split; [|split; [|split]].
  - split; [apply (sample_session 2); right; reflexivity|]. split; [reflexivity|]. split; [apply session_okb_ok; vm_compute; reflexivity|reflexivity].
  - split; [apply (sample_session 2); right; reflexivity|]. split; [reflexivity|]. split; [apply session_okb_ok; vm_compute; reflexivity|].
    replace (get_record_length inst_h) with 34 by (vm_compute; reflexivity). unfold record_of, sample_point. cbn [p_data].
    intros X. apply (f_equal (hd 0)) in X. vm_compute in X. discriminate.
  - split; [|reflexivity]. unfold idling, sample_points. cbn [map idle accepted forallb transformed obind]. repeat split.
  - repeat (constructor; [reflexivity|]). constructor.
Qed.
Print Assumptions C78_instance.

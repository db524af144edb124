(** C52: STL-style iterators over readers and writers.

    Vocabulary.  Iter_Spec.v: calls on iterators ([iop]), what they show ([iobs])
    and the machine of cursors [spec_run] (one cursor per reader: iterators over
    the same reader share it).  [iops_run] (Iter_Model.v): the same calls on the
    modelled readers.  [for_each], [copy_points]: the loops of std::for_each and
    std::copy.  [records_from F 0]: all records of the file, in order. *)
From Coq Require Import ZArith List Bool Lia String.
From Coq Require Import ZifyBool ZifyNat.
Import ListNotations.
From Verif Require Import Outcome Bytes Float64 Float64_Proofs CStr Vlr_Model Schema_Model Header_Model Point_Model Stream_Model Stream_Proofs
  IO_Spec Reader_Proofs Reader_Model Reader_Spec Reader_Api Reader_Open Reader_Hist Writer_Model Writer_Api Writer_Proofs Writer_File Writer_RT IO_Round IO_Extra IO_Samples
  Prop_Reader Iter_Spec Iter_Model Iter_Proofs Rewrite_Proofs.
Local Open Scope Z_scope.
Local Notation length := List.length (only parsing).

(** Opens a reader on each file. *)
Fixpoint open_each (xml : vlr -> outcome schema) (doy year : Z) (Fs : list (list Z)) : outcome (list reader) :=
  match Fs with
  | [] => Ok []
  | F :: r => let! a := reader_open xml doy year F in let! l := open_each xml doy year r in Ok (a :: l)
  end.
Lemma open_each_reads xml doy year Fs : Forall a_file Fs ->
  exists st, open_each xml doy year Fs = Ok st /\ Forall2 reads (map opened Fs) st.
Proof.
  induction 1 as [|F Fs HF HFs (st & E & IH)]; cbn [open_each map]; [eauto|].
  destruct (open_reads xml doy year F HF) as (r & -> & HR & _). cbn [obind]. rewrite E. cbn [obind]. eauto.
Qed.

(** Every history of iterator calls over any number of files shows what the
    cursor machine says. *)
Theorem C52_history : forall xml doy year Fs ops l, Forall a_file Fs -> spec_run (map opened Fs, []) ops = Some l ->
  exists st, open_each xml doy year Fs = Ok st /\ iops_run st [] ops = Ok l.
Proof.
  intros xml doy year Fs ops l HF E. destruct (open_each_reads xml doy year Fs HF) as (st & E1 & HR). exists st. split; [exact E1|].
  eapply iops_reads; eassumption.
Qed.
Print Assumptions C52_history.

(** A loop from the begin iterator to the end iterator visits every record once,
    in file order, whatever other readers there are. *)
Theorem C52_visit : forall xml doy year Fs k F, Forall a_file Fs -> nth_error Fs k = Some F ->
  exists st st1 it st2, open_each xml doy year Fs = Ok st /\ it_begin st k = (st1, Ok it) /\
    for_each (Z.to_nat (f_npts F) + 2) st1 it it_end = Ok (records_from F 0, st2, it_end) /\
    length (records_from F 0) = Z.to_nat (f_npts F) /\
    forall i, 0 <= i < f_npts F -> nth_error (records_from F 0) (Z.to_nat i) = Some (file_record F i).
Proof.
  intros xml doy year Fs k F HF EK. destruct (open_each_reads xml doy year Fs HF) as (st & E1 & HR). exists st.
  destruct (Forall2_nth _ _ _ HR k (opened F)) as (r & ER & HRr); [now apply map_nth_error|].
  destruct (for_each_all k F st r (Z.to_nat (f_npts F) + 2) ER HRr ltac:(lia)) as (st1 & it & st2 & E2 & E3).
  exists st1, it, st2. split; [exact E1|]. split; [exact E2|]. split; [exact E3|].
  split; [unfold records_from; rewrite map_length, seq_length; lia|].
  intros i Hi. unfold records_from.
  assert (ES : nth_error (seq 0 (Z.to_nat (f_npts F - 0))) (Z.to_nat i) = Some (Z.to_nat i)).
  { rewrite (nth_error_nth' _ 0%nat) by (rewrite seq_length; lia). now rewrite seq_nth by lia. }
  rewrite (map_nth_error _ _ _ ES). do 2 f_equal. lia.
Qed.
Print Assumptions C52_visit.

(** std::copy from a file to a new file with the same record length: same count,
    same record length, same records. *)
Theorem C52_copy : forall sv xml doy year F h, a_file F -> fresh_ok sv h -> las_header h -> get_record_length h = f_reclen F ->
  exists r w st1 it st2 w2 G, reader_open xml doy year F = Ok r /\ writer_new sv (os_open []) h = Ok w /\
    it_begin [r] 0 = (st1, Ok it) /\ copy_points (Z.to_nat (f_npts F) + 2) st1 it it_end w = Ok (st2, w2) /\
    writer_close w2 = Ok G /\
    f_npts G = f_npts F /\ f_reclen G = f_reclen F /\ complete G /\
    forall i, 0 <= i < f_npts F -> file_record G i = file_record F i.
Proof.
  intros sv xml doy year F h HA HF HL EL. destruct (open_reads xml doy year F HA) as (r & E1 & HR & _).
  pose proof HA as ((HB & _) & _ & _ & HC). destruct (fields_nonneg F HB) as (_ & N0 & _).
  assert (N1 : f_npts F < 2 ^ 32) by (pose proof (u_at_range F 107 4 HB) as UR; change (pow256 4) with (2 ^ 32) in UR; unfold f_npts; lia).
  set (ps := file_points F (r_hdr r)).
  assert (HP : Forall (point_fits (get_record_length h)) ps).
  { unfold ps, file_points, records_from. rewrite map_map. apply Forall_forall. intros p Hp. apply in_map_iff in Hp. destruct Hp as (i & <- & Hi).
    apply in_seq in Hi. pose proof (file_record_length F (0 + Z.of_nat i) HC HB ltac:(lia)) as LL. unfold point_fits. cbn [p_data].
    rewrite EL. split; [lia|]. intros X. rewrite X in LL. destruct HC as (C1 & _). cbn [List.length] in LL. lia. }
  assert (LP : Z.of_nat (length ps) = f_npts F) by (unfold ps; rewrite file_points_length; lia).
  pose proof (write_file_image sv h ps HF HP ltac:(lia)) as EW. unfold write_file, write_session in EW.
  destruct (writer_new sv (os_open []) h) as [w|e|u]; cbn [obind] in EW; try discriminate.
  destruct (write_points w ps) as [w2|e|u] eqn:EP; cbn [obind] in EW; try discriminate.
  destruct (copy_all 0 F [r] r (Z.to_nat (f_npts F) + 2) w w2 eq_refl HR ltac:(lia) EP) as (st1 & it & st2 & E2 & E3).
  exists r, w, st1, it, st2, w2, (file_image sv h ps). split; [exact E1|]. split; [reflexivity|]. split; [exact E2|]. split; [exact E3|]. split; [exact EW|].
  destruct HL as (_ & _ & _ & L4 & L5).
  destruct (written_fields sv h ps HF ltac:(lia) ltac:(lia)) as (_&_&_&_&_&_&_&X105&X107&_).
  split; [unfold f_npts at 1; lia|]. split; [unfold f_reclen at 1; lia|].
  split; [apply written_complete; (assumption || lia)|].
  intros i Hi. pose proof (file_points_nth F (r_hdr r) i Hi) as NP. fold ps in NP.
  pose proof (written_record sv h ps (Z.to_nat i) _ HF ltac:(lia) ltac:(lia) HP L5 NP) as X. rewrite Z2Nat.id in X by lia.
  rewrite X. unfold record_of. cbn [p_data]. apply firstn_all2. rewrite (file_record_length F i HC HB Hi). lia.
Qed.
Print Assumptions C52_copy.

Example C52_instance : Forall a_file [three; three] /\ records_from three 0 = [rec_of 7; rec_of 8; rec_of 9] /\
  spec_run (map opened [three; three], []) [Begin 0; Begin 1; End; Deref 0; Pre 0; Deref 0; Deref 1; Same 0 1; Pre 0; Pre 0; Same 0 2; Deref 0] =
  Some [Nothing; Nothing; Nothing; Record (rec_of 7); Nothing; Record (rec_of 8); Record (rec_of 7); Answer false; Nothing; Nothing; Answer true;
        Raised ERuntime].
Proof.
  split; [repeat apply Forall_cons; try apply Forall_nil; apply three_ok|]. split; vm_compute; reflexivity.
Qed.

(** The old value of an iterator is not kept: [*it++] is the next record, not the
    current one. *)
Theorem C52_post_increment_refuted : exists F, a_file F /\ forall xml doy year, exists st, open_each xml doy year [F] = Ok st /\
  iops_run st [] [Begin 0; Deref 0; Post 0; Deref 1] = Ok [Nothing; Record (file_record F 0); Nothing; Record (file_record F 1)] /\
  file_record F 0 <> file_record F 1.
Proof.
  exists three. split; [apply three_ok|]. intros xml doy year.
  destruct (C52_history xml doy year [three] [Begin 0; Deref 0; Post 0; Deref 1]
    [Nothing; Record (file_record three 0); Nothing; Record (file_record three 1)]) as (st & E1 & E2).
  - repeat apply Forall_cons; try apply Forall_nil; apply three_ok.
  - vm_compute. reflexivity.
  - exists st. split; [exact E1|]. split; [exact E2|]. vm_compute. discriminate.
Qed.
Print Assumptions C52_post_increment_refuted.

(** Two iterators over one reader are equal wherever they were created, and
    advancing one moves both; the second begin iterator starts at record 1. *)
Theorem C52_two_passes_refuted : exists F, a_file F /\ forall xml doy year, exists st, open_each xml doy year [F] = Ok st /\
  iops_run st [] [Begin 0; Deref 0; Begin 0; Deref 1; Deref 0; Same 0 1] =
  Ok [Nothing; Record (file_record F 0); Nothing; Record (file_record F 1); Record (file_record F 1); Answer true] /\
  file_record F 0 <> file_record F 1.
Proof.
  exists three. split; [apply three_ok|]. intros xml doy year.
  destruct (C52_history xml doy year [three] [Begin 0; Deref 0; Begin 0; Deref 1; Deref 0; Same 0 1]
    [Nothing; Record (file_record three 0); Nothing; Record (file_record three 1); Record (file_record three 1); Answer true]) as (st & E1 & E2).
  - repeat apply Forall_cons; try apply Forall_nil; apply three_ok.
  - vm_compute. reflexivity.
  - exists st. split; [exact E1|]. split; [exact E2|]. vm_compute. discriminate.
Qed.
Print Assumptions C52_two_passes_refuted.

(** A copy of an iterator does not learn that the data ended: it still compares
    different from the end and shows the last record. *)
Theorem C52_copy_at_end_refuted : exists F, a_file F /\ f_npts F = 3 /\ forall xml doy year, exists st, open_each xml doy year [F] = Ok st /\
  iops_run st [] [Begin 0; Pre 0; Pre 0; Copy 0; Pre 0; End; Same 0 2; Same 1 2; Deref 1] =
  Ok [Nothing; Nothing; Nothing; Nothing; Nothing; Nothing; Answer true; Answer false; Record (file_record F 2)].
Proof.
  exists three. split; [apply three_ok|]. split; [apply three_ok|]. intros xml doy year.
  destruct (C52_history xml doy year [three] [Begin 0; Pre 0; Pre 0; Copy 0; Pre 0; End; Same 0 2; Same 1 2; Deref 1]
    [Nothing; Nothing; Nothing; Nothing; Nothing; Nothing; Answer true; Answer false; Record (file_record three 2)]) as (st & E1 & E2).
  - repeat apply Forall_cons; try apply Forall_nil; apply three_ok.
  - vm_compute. reflexivity.
  - exists st. split; [exact E1|exact E2].
Qed.
Print Assumptions C52_copy_at_end_refuted.

(** The iterator over the matches of an index never yields one and never ends. *)
Theorem C52_index_iterator_refuted : forall k n,
  x_deref (Nat.iter n x_inc (x_begin k)) = Throw ERuntime /\ x_equal (Nat.iter n x_inc (x_begin k)) x_end = false.
Proof.
  intros k n. assert (E : Nat.iter n x_inc (x_begin k) = Some k) by (induction n as [|n IH]; [reflexivity|exact IH]).
  rewrite E. split; reflexivity.
Qed.
Print Assumptions C52_index_iterator_refuted.

(** [C52_copy] applies: a header of the right record length. *)
Example C52_copy_instance : exists F, a_file F /\ fresh_ok no_sv (sample_header 2) /\ las_header (sample_header 2) /\
  get_record_length (sample_header 2) = f_reclen F /\ f_npts F = 2.
Proof.
  exists (raw_file 2 227 0 3 34 2 (repeat 7 34 ++ repeat 8 34)).
  split.
  { split; [apply las_fileb_ok; vm_compute; reflexivity|]. split; [apply no_schema_vlrb; vm_compute; reflexivity|].
    split; [repeat apply Forall_cons; try apply Forall_nil; vm_compute; reflexivity|].
    split; [vm_compute; reflexivity|intros _; vm_compute; discriminate]. }
  destruct (sample_session 2 (or_intror eq_refl)) as (A & B & _). split; [exact A|]. split; [exact B|]. split; vm_compute; reflexivity.
Qed.

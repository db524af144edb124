(** C24-C29, C31, C46, C48: reading files.

    Vocabulary.  Reader_Spec.v: [file_record F k] (the k-th record of a file),
    [complete], [exact_end], the cursor machine [cur_run], the two-cursor machine
    [two_run].  Reader_Api.v: [rops_run] runs a history of ReadNextPoint,
    ReadPointAt, Seek and Reset calls on the modelled reader and collects, after
    every call, its result and the current point; [read_all] calls ReadNextPoint
    until it returns false, with a filter installed. *)
From Coq Require Import ZArith List Bool Lia String.
Import ListNotations.
From Verif Require Import Outcome Bytes Float64 Float64_Proofs CStr Vlr_Model Schema_Model Header_Model Point_Model Stream_Model Stream_Proofs
  IO_Spec Reader_Model Reader_Spec Reader_Api Reader_Hist Reader_Filter IO_Extra IO_Samples.
Local Open Scope Z_scope.
Local Notation length := List.length (only parsing).

Definition a_file (F : list Z) : Prop := las_file F /\ no_schema_vlr F /\ finite_scaling F /\ complete F.

(** C24 *)
Theorem C24_sequential : forall xml doy year F ops, a_file F -> Forall rop_ok ops -> Forall (fun o => is_at o = false) ops ->
  exists r r1, reader_open xml doy year F = Ok r /\
    rops_run xml r ops = Ok (r1, cur_run F (0, repeat 0 (Z.to_nat (f_reclen F))) ops).
Proof.
  intros xml doy year F ops (HF & HN & HS & HC) Ho Ha. destruct (open_ok xml doy year F HF HN) as (r & E & Hi & Hc & Hd & _).
  assert (RC : rcur F r 0).
  { split; [exact Hi|]. split; [exact Hc|]. pose proof HF as (HB & _). destruct (fields_nonneg F HB). split; lia. }
  destruct (rcur_run xml F ops r 0 HF HN HS HC Ho Ha RC) as (r1 & ER). exists r, r1. split; [exact E|]. now rewrite ER, Hd.
Qed.
Print Assumptions C24_sequential.

(** A complete file with three records, bytes 7, 8, 9. *)
Definition three : list Z := raw_file 2 227 0 0 20 3 (rec_of 7 ++ rec_of 8 ++ rec_of 9).
Lemma three_ok : a_file three /\ exact_end three /\ f_npts three = 3 /\ f_reclen three = 20.
Proof.
  split; [|split; [intros _; vm_compute; reflexivity|split; vm_compute; reflexivity]].
  split; [apply las_fileb_ok; vm_compute; reflexivity|]. split; [apply no_schema_vlrb; vm_compute; reflexivity|].
  split; [repeat apply Forall_cons; try apply Forall_nil; vm_compute; reflexivity|].
  split; [vm_compute; reflexivity|intros _; vm_compute; discriminate].
Qed.

Example C24_instance : exists r r1, reader_open (fun _ => Throw ERuntime) 1 2012 three = Ok r /\
  rops_run (fun _ => Throw ERuntime) r [RNext; RNext; RReset; RNext; RSeek 2; RNext; RNext; RNext] =
  Ok (r1, [(ATrue, rec_of 7); (ATrue, rec_of 8); (ATrue, rec_of 8); (ATrue, rec_of 7); (ATrue, rec_of 7); (ATrue, rec_of 9);
           (AFalse, rec_of 9); (AFalse, rec_of 9)]).
Proof.
  destruct (C24_sequential (fun _ => Throw ERuntime) 1 2012 three [RNext; RNext; RReset; RNext; RSeek 2; RNext; RNext; RNext] (proj1 three_ok))
    as (r & r1 & E1 & E2).
  - repeat apply Forall_cons; try apply Forall_nil; cbn [rop_ok]; (exact I || discriminate).
  - repeat apply Forall_cons; try apply Forall_nil; reflexivity.
  - exists r, r1. split; [exact E1|]. rewrite E2. vm_compute. reflexivity.
Qed.

(** C25: after any history whatsoever, ReadPointAt returns the record asked for
    (an index past the last record is an out_of_range error and changes
    nothing), and Seek followed by ReadNextPoint returns it too. *)
Theorem C25_random_access : forall xml doy year F ops, a_file F -> Forall rop_ok ops ->
  exists r r1 obs, reader_open xml doy year F = Ok r /\ rops_run xml r ops = Ok (r1, obs) /\
    forall n, 0 <= n ->
      if n <? f_npts F
      then (exists r2, rops_run xml r1 [RAt n] = Ok (r2, [(ATrue, file_record F n)])) /\
           (exists r3, rops_run xml r1 [RSeek n; RNext] = Ok (r3, [(ATrue, r_data r1); (ATrue, file_record F n)]))
      else rops_run xml r1 [RAt n] = Ok (r1, [(AError EOutOfRange, r_data r1)]).
Proof.
  intros xml doy year F ops (HF & HN & HS & HC) Ho. destruct (open_ok xml doy year F HF HN) as (r & E & Hi & Hc & Hd & _).
  destruct (rops_inv xml F ops r HF HN HS HC Ho Hi) as (r1 & obs & E1 & I1). exists r, r1, obs. split; [exact E|]. split; [exact E1|].
  intros n Hn. destruct (at_exact F r1 n HF HC I1 Hn) as (r2 & E2 & D2 & Same).
  destruct (Z.ltb_spec n (f_npts F)) as [L|L].
  - split.
    + exists r2. cbn [rops_run rop_run]. rewrite E2. cbn [ans of_bool obind]. now rewrite D2.
    + pose proof I1 as (A & B & C & D & EE & G & H & I & J).
      assert (ST : reader_seek r1 n = (mkRd (is_seek (is_clear (r_is r1)) (n * get_record_length (r_hdr r1) + h_doff (r_hdr r1)))
          (r_hdr r1) (r_data r1) (r_size r1) (n mod 2 ^ 32) (r_recsize r1), Ok true)).
      { unfold reader_seek. rewrite EE. destruct (Z.eqb_spec (f_npts F) n); [lia|]. destruct (Z.ltb_spec (f_npts F) n); [lia|]. reflexivity. }
      destruct (fields_nonneg F (proj1 HF)) as (D0 & N0 & L0).
      assert (M0 : 0 <= n * f_reclen F) by (apply Z.mul_nonneg_nonneg; lia).
      set (r3 := mkRd _ _ _ _ _ _) in ST.
      assert (RC : rcur F r3 n).
      { unfold r3. rewrite (shows_reclen F _ A), (shows_doff F _ A), is_seek_clean, C by lia.
        split; [|split; [cbn [r_current]; apply Z.mod_small; lia|split; [lia|intros _ _; cbn [r_is]; do 2 f_equal; lia]]].
        unfold rinv. cbn [r_hdr r_is r_size r_recsize r_data r_current at_pos is_data is_fail is_eof]. rewrite Z.mod_small by lia.
        repeat (split; [assumption || reflexivity || discriminate|]). lia. }
      destruct (rcur_step xml F r3 n RNext HF HN HS HC Logic.I eq_refl RC) as (r4 & E4 & _ & D4).
      exists r4. cbn [rops_run]. change (rop_run xml r1 (RSeek n)) with (let (q, a) := reader_seek r1 n in (q, ans a of_bool)).
      rewrite ST. cbn [ans of_bool obind]. rewrite E4. cbn [obind]. rewrite D4.
      cbn [cur_step fst snd]. destruct (Z.ltb_spec n (f_npts F)); [|lia]. reflexivity.
  - cbn [rops_run rop_run]. rewrite E2. cbn [ans obind]. now rewrite (Same L).
Qed.
Print Assumptions C25_random_access.

Example C25_instance : a_file three /\ file_record three 2 = rec_of 9 /\ Forall rop_ok [RNext; RAt 1; RSeek 2; RReset].
Proof.
  split; [apply three_ok|]. split; [vm_compute; reflexivity|].
  repeat apply Forall_cons; try apply Forall_nil; cbn [rop_ok]; (exact I || discriminate).
Qed.

(** C26: ReadPointAt does disturb sequential reading.  What happens on a file
    that ends with its last record is exactly the two-cursor machine. *)
Theorem C26_interleaving_exact : forall xml doy year F ops, a_file F -> exact_end F -> Forall rop_ok ops ->
  exists r r1, reader_open xml doy year F = Ok r /\
    rops_run xml r ops = Ok (r1, two_run F (0, Some 0, repeat 0 (Z.to_nat (f_reclen F))) ops).
Proof.
  intros xml doy year F ops (HF & HN & HS & HC) HE Ho. destruct (open_ok xml doy year F HF HN) as (r & E & Hi & Hc & Hd & _).
  destruct (rtwo_run xml F ops r 0 (Some 0) HF HN HS (proj1 HC) HE Ho) as (r1 & ER).
  { split; [exact Hi|]. split; [exact Hc|]. destruct (fields_nonneg F (proj1 HF)). split; lia. }
  exists r, r1. split; [exact E|]. now rewrite ER, Hd.
Qed.
Print Assumptions C26_interleaving_exact.

(** The results of the sequential reads of a history. *)
Definition sequential (ops : list rop) (obs : list (rans * list Z)) : list (rans * list Z) :=
  map snd (filter (fun q => match fst q with RNext => true | _ => false end) (combine ops obs)).
Theorem C26_undisturbed_refuted : exists F ops, forall xml, a_file F /\ Forall rop_ok ops /\
  exists r r1 obs, reader_open xml 1 2012 F = Ok r /\ rops_run xml r ops = Ok (r1, obs) /\
    sequential ops obs = [(ATrue, rec_of 7); (ATrue, rec_of 9)] /\
    exists r2 obs2, rops_run xml r (filter (fun o => negb (is_at o)) ops) = Ok (r2, obs2) /\
    obs2 = [(ATrue, rec_of 7); (ATrue, rec_of 8)].
Proof.
  exists three, [RNext; RAt 1; RNext]. intros xml. split; [apply three_ok|].
  assert (Ho : Forall rop_ok [RNext; RAt 1; RNext]) by (repeat apply Forall_cons; try apply Forall_nil; cbn [rop_ok]; (exact I || discriminate)).
  split; [exact Ho|].
  destruct (C26_interleaving_exact xml 1 2012 three _ (proj1 three_ok) (proj1 (proj2 three_ok)) Ho) as (r & r1 & E1 & E2).
  exists r, r1. eexists. split; [exact E1|]. split; [exact E2|]. split; [vm_compute; reflexivity|].
  destruct (C24_sequential xml 1 2012 three [RNext; RNext] (proj1 three_ok)) as (r' & r2 & E3 & E4);
    [repeat apply Forall_cons; try apply Forall_nil; exact I|repeat apply Forall_cons; try apply Forall_nil; reflexivity|].
  rewrite E1 in E3. apply Writer_Append.Ok_inj in E3. rewrite <- E3 in E4. cbn [filter is_at negb]. exists r2. eexists. split; [exact E4|].
  vm_compute. reflexivity.
Qed.
Print Assumptions C26_undisturbed_refuted.

(** C27: with a stateless filter, reading a whole file gives the accepted records
    in order; except that an accepted last record is dropped when the two before
    it are rejected.  This is exact. *)
Theorem C27_filtered_exact : forall xml doy year F, las_file F -> no_schema_vlr F -> 0 < f_reclen F -> exact_end F -> f_npts F + 1 < 2 ^ 32 ->
  exists r, reader_open xml doy year F = Ok r /\
  forall keep fuel, (Z.to_nat (f_npts F) < fuel)%nat ->
    exists r1, read_all (stateless keep) fuel r tt =
      Ok ((let acc d := keep (mkPoint d (r_hdr r)) in
           if isolated_last F acc then removelast (filter acc (records_from F 0)) else filter acc (records_from F 0)), true, r1, tt).
Proof. exact filtered_all. Qed.
Print Assumptions C27_filtered_exact.

Theorem C27_all_accepted_refuted : exists F keep, forall xml, a_file F /\ exact_end F /\
  exists r r1, reader_open xml 1 2012 F = Ok r /\
    filter (fun d => keep (mkPoint d (r_hdr r))) (records_from F 0) = [rec_of 9] /\
    read_all (stateless keep) 10 r tt = Ok ([], true, r1, tt).
Proof.
  exists three, (fun p => nth 0 (p_data p) 0 =? 9). intros xml. destruct three_ok as (A & B & C & D). split; [exact A|]. split; [exact B|].
  destruct (C27_filtered_exact xml 1 2012 three (proj1 A) (proj1 (proj2 A))) as (r & E & X); [rewrite D; reflexivity|exact B|rewrite C; reflexivity|].
  destruct (X (fun p => nth 0 (p_data p) 0 =? 9) 10%nat) as (r1 & ER); [rewrite C; repeat constructor|].
  exists r, r1. split; [exact E|]. split; [vm_compute; reflexivity|]. rewrite ER. cbn [p_data]. vm_compute. reflexivity.
Qed.
Print Assumptions C27_all_accepted_refuted.

(** C28: without filters and ReadPointAt every point returned is one of the
    declared records (C24).  With a filter the reader goes past them ... *)
Theorem C28_sequential : forall xml doy year F ops, a_file F -> Forall rop_ok ops -> Forall (fun o => is_at o = false) ops ->
  exists r r1 obs, reader_open xml doy year F = Ok r /\ rops_run xml r ops = Ok (r1, obs) /\
    forall o d, In (o, (ATrue, d)) (combine ops obs) -> o = RNext -> exists k, 0 <= k < f_npts F /\ d = file_record F k.
Proof.
  intros xml doy year F ops HA Ho Ha. destruct (C24_sequential xml doy year F ops HA Ho Ha) as (r & r1 & E1 & E2).
  exists r, r1. eexists. split; [exact E1|]. split; [exact E2|].
  assert (C0 : forall ops c p, 0 <= c -> Forall rop_ok ops -> forall o d, In (o, (ATrue, d)) (combine ops (cur_run F (c, p) ops)) -> o = RNext ->
     exists k, 0 <= k < f_npts F /\ d = file_record F k).
  { clear. induction ops as [|q ops IH]; intros c p Hc Ho o d Hin Hr; [destruct Hin|]. inversion Ho; subst.
    cbn [cur_run] in Hin. destruct (cur_step F (c, p) q) as [[c1 p1] a] eqn:ES. cbn [combine snd] in Hin. destruct Hin as [Hin|Hin].
    - injection Hin as -> -> ->. cbn [cur_step] in ES. destruct (Z.ltb_spec c (f_npts F)); [|discriminate]. injection ES as <- <-. eauto.
    - eapply (IH c1 p1); eauto. clear Hin. destruct q; cbn [cur_step rop_ok] in *.
      + destruct (c <? f_npts F); injection ES as <- <- _; lia.
      + destruct (n <? f_npts F); injection ES as <- <- _; lia.
      + destruct (n <? f_npts F); [injection ES as <- <- _; lia|]. destruct (n =? f_npts F); injection ES as <- <- _; lia.
      + injection ES as <- <- _. lia. }
  intros o d Hin Hr. eapply (C0 ops 0); eauto. lia.
Qed.
Print Assumptions C28_sequential.

(** One declared record, and 20 more bytes. *)
Definition trailing : list Z := raw_file 2 227 0 0 20 1 (rec_of 7 ++ rec_of 9).
Lemma trailing_ok : a_file trailing /\ f_npts trailing = 1.
Proof.
  split; [|vm_compute; reflexivity].
  split; [apply las_fileb_ok; vm_compute; reflexivity|]. split; [apply no_schema_vlrb; vm_compute; reflexivity|].
  split; [repeat apply Forall_cons; try apply Forall_nil; vm_compute; reflexivity|].
  split; [vm_compute; reflexivity|intros _; vm_compute; discriminate].
Qed.
Theorem C28_filtered_refuted : exists F keep, forall xml, a_file F /\ f_npts F = 1 /\
  exists r l, reader_open xml 1 2012 F = Ok r /\
    (exists b r1, read_all (stateless keep) 10 r tt = Ok (l, b, r1, tt)) /\ l = [rec_of 9] /\ file_record F 0 <> rec_of 9.
Proof.
  exists trailing, (fun p => nth 0 (p_data p) 0 =? 9). intros xml. split; [apply trailing_ok|]. split; [apply trailing_ok|].
  destruct (open_ok xml 1 2012 trailing) as (r & E & _); [apply trailing_ok|apply trailing_ok|]. exists r.
  destruct (read_all (stateless (fun p => nth 0 (p_data p) 0 =? 9)) 10 r tt) as [[[[l b] r1] []]|e|u] eqn:EA.
  - exists l. split; [exact E|]. split; [eauto|].
    assert (X : (let! r := reader_open xml 1 2012 trailing in let! (l, _, _, _) := read_all (stateless (fun p => nth 0 (p_data p) 0 =? 9)) 10 r tt in Ok l)
       = Ok [rec_of 9]) by (vm_compute; reflexivity).
    rewrite E in X. cbn [obind] in X. rewrite EA in X. cbn [obind] in X. apply Writer_Append.Ok_inj in X. split; [exact X|].
    vm_compute. discriminate.
  - exfalso. assert (X : (let! r := reader_open xml 1 2012 trailing in let! (l, _, _, _) := read_all (stateless (fun p => nth 0 (p_data p) 0 =? 9)) 10 r tt in Ok l)
       = Ok [rec_of 9]) by (vm_compute; reflexivity).
    rewrite E in X. cbn [obind] in X. rewrite EA in X. discriminate.
  - exfalso. assert (X : (let! r := reader_open xml 1 2012 trailing in let! (l, _, _, _) := read_all (stateless (fun p => nth 0 (p_data p) 0 =? 9)) 10 r tt in Ok l)
       = Ok [rec_of 9]) by (vm_compute; reflexivity).
    rewrite E in X. cbn [obind] in X. rewrite EA in X. discriminate.
Qed.
Print Assumptions C28_filtered_refuted.

(** ReadPointAt(n-1) followed by ReadNextPoint reads past the last record too. *)
Theorem C28_after_random_access_refuted : exists F ops, forall xml, a_file F /\ f_npts F = 2 /\
  exists r, reader_open xml 1 2012 F = Ok r /\
    match rops_run xml r ops with
    | Ok (_, obs) => obs = [(ATrue, rec_of 7); (ATrue, rec_of 8); (ATrue, rec_of 9)]
    | _ => False
    end /\ file_record F 0 = rec_of 7 /\ file_record F 1 = rec_of 8.
Proof.
  exists (raw_file 2 227 0 0 20 2 (rec_of 7 ++ rec_of 8 ++ rec_of 9)), [RNext; RAt 1; RNext]. intros xml.
  set (F := raw_file 2 227 0 0 20 2 (rec_of 7 ++ rec_of 8 ++ rec_of 9)).
  assert (HA : a_file F).
  { split; [apply las_fileb_ok; vm_compute; reflexivity|]. split; [apply no_schema_vlrb; vm_compute; reflexivity|].
    split; [repeat apply Forall_cons; try apply Forall_nil; vm_compute; reflexivity|].
    split; [vm_compute; reflexivity|intros _; vm_compute; discriminate]. }
  split; [exact HA|]. split; [vm_compute; reflexivity|].
  destruct (open_ok xml 1 2012 F (proj1 HA) (proj1 (proj2 HA))) as (r & E & _). exists r. split; [exact E|].
  split; [|split; vm_compute; reflexivity].
  assert (X : (let! r := reader_open xml 1 2012 F in let! (_, l) := rops_run xml r [RNext; RAt 1; RNext] in Ok l)
     = Ok [(ATrue, rec_of 7); (ATrue, rec_of 8); (ATrue, rec_of 9)]) by (vm_compute; reflexivity).
  rewrite E in X. cbn [obind] in X. destruct (rops_run xml r [RNext; RAt 1; RNext]) as [[q l]|e|u]; cbn [obind] in X; [|discriminate|discriminate].
  now apply Writer_Append.Ok_inj in X.
Qed.
Print Assumptions C28_after_random_access_refuted.

(** C29: a file that ends before its last declared record.  With [q] whole records
    present, sequential reading returns them, then one more "point" made of the
    bytes left over the previous record's bytes, and then false for ever.  This is
    exact; the property itself is refuted by the extra point. *)
Theorem C29_truncated_exact : forall xml doy year F m, las_file F -> no_schema_vlr F -> 0 < f_reclen F -> f_doff F <= Z.of_nat (length F) ->
  let q := (Z.of_nat (length F) - f_doff F) / f_reclen F in
  q < f_npts F ->
  exists r r1, reader_open xml doy year F = Ok r /\
    let recs := map (fun i => file_record F (Z.of_nat i)) (seq 0 (Z.to_nat q)) in
    let bogus := patch (last recs (repeat 0 (Z.to_nat (f_reclen F)))) (skipn (Z.to_nat (f_doff F + q * f_reclen F)) F) in
    rops_run xml r (repeat RNext (Z.to_nat q + 1 + m)) =
      Ok (r1, map (fun d => (ATrue, d)) recs ++ [(ATrue, bogus)] ++ repeat (AFalse, bogus) m).
Proof. exact truncated_exact. Qed.
Print Assumptions C29_truncated_exact.

Definition cut : list Z := raw_file 2 227 0 0 20 3 (rec_of 7 ++ firstn 5 (rec_of 8)).
Theorem C29_complete_records_only_refuted : exists F, forall xml, las_file F /\ no_schema_vlr F /\ f_npts F = 3 /\
  exists r r1, reader_open xml 1 2012 F = Ok r /\
    rops_run xml r [RNext; RNext; RNext] =
    Ok (r1, [(ATrue, rec_of 7); (ATrue, repeat 8 5 ++ repeat 7 15); (AFalse, repeat 8 5 ++ repeat 7 15)]).
Proof.
  exists cut. intros xml.
  assert (A : las_file cut) by (apply las_fileb_ok; vm_compute; reflexivity).
  assert (B : no_schema_vlr cut) by (apply no_schema_vlrb; vm_compute; reflexivity).
  split; [exact A|]. split; [exact B|]. split; [vm_compute; reflexivity|].
  destruct (C29_truncated_exact xml 1 2012 cut 1 A B) as (r & r1 & E1 & E2); [vm_compute; reflexivity|vm_compute; discriminate|vm_compute; reflexivity|].
  exists r, r1. split; [exact E1|].
  change [RNext; RNext; RNext] with (repeat RNext (Z.to_nat ((Z.of_nat (length cut) - f_doff cut) / f_reclen cut) + 1 + 1)).
  rewrite E2. vm_compute. reflexivity.
Qed.
Print Assumptions C29_complete_records_only_refuted.

(** C31: header blocks.  The checks of the specification: signature, version 1.0
    to 1.3, data offset not inside the header, format 0 to 3 and no compression
    bits (this build has no LASzip). *)
Definition header_checks (F : list Z) : Prop :=
  slice F 0 4 = [76; 65; 83; 70] /\ u_at F 24 1 = 1 /\ u_at F 25 1 <= 3 /\ u_at F 94 2 <= u_at F 96 4 /\ u_at F 104 1 <= 3.
Theorem C31_rejected : forall xml doy year F, bytes_ok F -> (227 <= length F)%nat -> ~ header_checks F ->
  forall r, reader_open xml doy year F <> Ok r.
Proof. intros xml doy year F HB HL HN r E. apply HN. exact (accepted_checks xml doy year F r HB HL E). Qed.
Print Assumptions C31_rejected.

Theorem C31_accepted : forall xml doy year F, bytes_ok F -> (227 <= length F)%nat -> header_checks F ->
  (0 < u_at F 100 4 -> (file_vlrs_end F <= length F)%nat) -> no_schema_vlr F ->
  exists r, reader_open xml doy year F = Ok r /\ pub_of_header (r_hdr r) = pub_of_file F.
Proof.
  intros xml doy year F HB HL (A & B & C & D & E) HV HN.
  assert (HF : las_file F) by (repeat (split; [assumption|]); exact HV).
  destruct (open_ok xml doy year F HF HN) as (r & ER & Hi & _). exists r. split; [exact ER|]. apply Hi.
Qed.
Print Assumptions C31_accepted.

Example C31_instance : header_checks three /\ ~ header_checks (raw_file 4 227 0 0 20 0 []) /\ ~ header_checks (raw_file 2 226 0 0 20 0 []) /\
  ~ header_checks (raw_file 2 227 0 128 20 0 []) /\ ~ header_checks (raw_file 2 227 0 4 20 0 []).
Proof.
  split; [repeat split; vm_compute; (reflexivity || discriminate)|].
  repeat split; intros (_ & _ & A & B & C); (now apply A || now apply B || now apply C).
Qed.

(** C46: Reset re-reads the header into the same object, so the VLR list grows by
    the file's VLRs every time while the reported count stays. *)
Theorem C46_reset_vlrs_exact : forall xml doy year F k, a_file F ->
  exists r r1 obs, reader_open xml doy year F = Ok r /\ rops_run xml r (repeat RReset k) = Ok (r1, obs) /\
    h_vlrs (r_hdr r1) = List.concat (repeat (file_vlrs F) (S k)) /\ h_nvlr (r_hdr r1) = u_at F 100 4.
Proof.
  intros xml doy year F k (HF & HN & HS & HC). destruct (open_ok xml doy year F HF HN) as (r & E & Hi & Hc & Hd & HV & _).
  assert (X : forall k r, rinv F r -> exists r1 obs, rops_run xml r (repeat RReset k) = Ok (r1, obs) /\ rinv F r1 /\
     h_vlrs (r_hdr r1) = h_vlrs (r_hdr r) ++ List.concat (repeat (file_vlrs F) k)).
  { clear r E Hi Hc Hd HV k. induction k as [|k IH]; intros r Hi; cbn [repeat rops_run rop_run List.concat].
    - exists r, []. rewrite app_nil_r. auto.
    - destruct (reset_ok xml F r HF HN HS Hi) as (r1 & -> & I1 & _ & _ & V1). cbn [obind].
      destruct (IH r1 I1) as (r2 & obs & -> & I2 & V2). cbn [obind]. eexists r2, _. split; [reflexivity|]. split; [exact I2|].
      now rewrite V2, V1, <- app_assoc. }
  destruct (X k r Hi) as (r1 & obs & E1 & I1 & V1). exists r, r1, obs. split; [exact E|]. split; [exact E1|].
  split; [rewrite V1, HV; reflexivity|]. destruct I1 as ((P & _) & _). exact (f_equal ph_nvlr P).
Qed.
Print Assumptions C46_reset_vlrs_exact.

Definition with_vlr : list Z := raw_file 2 (227 + 57) 1 0 20 0 (vlr_image (sample_vlr 5 [1; 2; 3])).
Theorem C46_reset_idempotent_refuted : exists F, forall xml, a_file F /\
  exists r r1 obs, reader_open xml 1 2012 F = Ok r /\ rops_run xml r [RReset] = Ok (r1, obs) /\
    length (h_vlrs (r_hdr r)) = 1%nat /\ length (h_vlrs (r_hdr r1)) = 2%nat /\ h_nvlr (r_hdr r1) = 1.
Proof.
  exists with_vlr. intros xml.
  assert (HA : a_file with_vlr).
  { split; [apply las_fileb_ok; vm_compute; reflexivity|]. split; [apply no_schema_vlrb; vm_compute; reflexivity|].
    split; [repeat apply Forall_cons; try apply Forall_nil; vm_compute; reflexivity|].
    split; [vm_compute; reflexivity|intros H; vm_compute in H; discriminate]. }
  split; [exact HA|].
  destruct (C46_reset_vlrs_exact xml 1 2012 with_vlr 1 HA) as (r & r1 & obs & E1 & E2 & V1 & C1).
  destruct (C46_reset_vlrs_exact xml 1 2012 with_vlr 0 HA) as (r' & r1' & obs' & E1' & E2' & V1' & _).
  cbn [repeat rops_run] in E2'. rewrite E1 in E1'. apply Writer_Append.Ok_inj in E1'. apply Writer_Append.Ok_inj in E2'. injection E2' as X _. subst r1' r'.
  exists r, r1, obs. split; [exact E1|]. split; [exact E2|]. rewrite V1, V1', C1. repeat split; vm_compute; reflexivity.
Qed.
Print Assumptions C46_reset_idempotent_refuted.

(** C48: a file that ends inside the header block.  Files shorter than 219 bytes
    are never accepted; ones of 219 to 226 bytes can be. *)
Theorem C48_short_file_partial : forall xml doy year F, (length F < 219)%nat -> forall r, reader_open xml doy year F <> Ok r.
Proof. exact short_never_opened. Qed.
Print Assumptions C48_short_file_partial.

Theorem C48_truncated_header_refuted : exists F, length F = 220%nat /\ forall xml, is_ok (reader_open xml 1 2012 F) = true.
Proof. exists (firstn 220 (raw_file 2 227 0 0 20 0 [])). split; [vm_compute; reflexivity|]. intros xml. vm_compute. reflexivity. Qed.
Print Assumptions C48_truncated_header_refuted.

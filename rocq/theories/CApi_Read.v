(** Proofs about the C API model: reading a file. *)
From Coq Require Import ZArith List Bool String Lia.
Import ListNotations.
From Verif Require Import Outcome Bytes CStr Float64 Endian_Model Classif_Model Vlr_Model Schema_Model Header_Model Point_Model Point_Spec Point_Api Stream_Model Reader_Model Reader_Api IO_Spec Reader_Spec Reader_Proofs Reader_Open Reader_Hist Writer_Append CApi_Model CApi_Spec CApi_Proofs CApi_Safe CApi_More CApi_Store.
Local Open Scope Z_scope.
Local Notation length := List.length (only parsing).

Section read.
Context (dh : header) (xml : vlr -> outcome schema) (doy year : Z).
Lemma crun_app l1 : forall l2 s, crun dh xml doy year s (l1 ++ l2) = let! (t, r1) := crun dh xml doy year s l1 in let! (u, r2) := crun dh xml doy year t l2 in Ok (u, r1 ++ r2).
Proof.
  induction l1 as [|c l1 IH]; intros l2 s; cbn [crun app obind].
  - destruct (crun dh xml doy year s l2) as [[u r2]|e|u]; reflexivity.
  - destruct (cstep dh xml doy year s c) as [[t r]|e|u]; cbn [obind]; [|reflexivity|reflexivity]. rewrite IH.
    destruct (crun dh xml doy year t l1) as [[v r1]|e|u]; cbn [obind]; [|reflexivity|reflexivity].
    destruct (crun dh xml doy year v l2) as [[w r2]|e|u]; reflexivity.
Qed.
Lemma request_step F s n x c o : readable xml F -> nth_error (c_rdrs s) n = Some (Some x) -> rcur F x c -> next_or_seek o ->
  let st := cur_step F (c, r_data x) o in
  exists t x1, crun dh xml doy year s (request n o) = Ok (t, [reply n o (snd st)]) /\ nth_error (c_rdrs t) n = Some (Some x1) /\ rcur F x1 (fst (fst st)) /\ r_data x1 = snd (fst st) /\
    ((forall e, snd st <> AError e) -> c_errs t = c_errs s).
Proof.
  intros (LF & RS & FS & CO & _) E RC NS st.
  assert (RO : rop_ok o) by (destruct o; cbn in *; unfold in_unsigned in *; try lia; exact I). assert (NA : is_at o = false) by (destruct o; [reflexivity|contradiction|reflexivity|reflexivity]).
  destruct (rcur_step_x xml F x c o LF RS FS CO RO NA RC) as (x1 & ER & RC1 & D1). fold st in ER, RC1, D1.
  destruct o as [|i|i|]; try contradiction; cbn [rop_run request] in *.
  - destruct (reader_next no_filter no_transform x tt) as (rf, a) eqn:N. apply (f_equal fst) in ER as E1. apply (f_equal snd) in ER as E2. cbn [fst snd] in E1, E2. clear ER.
    cbn [crun]. unfold cstep. cbv zeta. cbn [valid]. unfold object. rewrite E. cbn [obind]. rewrite N. rewrite E1.
    assert (P : nth_error (c_rdrs (set_rdrs s (put (c_rdrs s) n x1))) n = Some (Some x1)) by (eapply set_same; exact E).
    destruct a as [[]|e|u]; cbn [ans of_bool] in E2; try discriminate; apply Ok_inj in E2; rewrite <- E2; cbn [obind reply].
    + eexists _, x1. split; [reflexivity|]. split; [exact P|]. split; [exact RC1|split; [exact D1|reflexivity]].
    + eexists _, x1. split; [reflexivity|]. split; [exact P|]. split; [exact RC1|split; [exact D1|reflexivity]].
    + eexists _, x1. split; [reflexivity|]. split; [exact P|]. split; [exact RC1|split; [exact D1|]]. intros NE. now elim (NE e).
  - destruct (reader_seek x i) as (rf, a) eqn:N. apply (f_equal fst) in ER as E1. apply (f_equal snd) in ER as E2. cbn [fst snd] in E1, E2. clear ER.
    cbn [crun]. unfold cstep. cbv zeta. cbn [valid]. unfold object. rewrite E. cbn [obind]. rewrite N. rewrite E1.
    assert (P : nth_error (c_rdrs (set_rdrs s (put (c_rdrs s) n x1))) n = Some (Some x1)) by (eapply set_same; exact E).
    destruct a as [[]|e|u]; cbn [ans of_bool] in E2; try discriminate; apply Ok_inj in E2; rewrite <- E2; cbn [obind reply].
    + eexists _, x1. split; [reflexivity|]. split; [exact P|]. split; [exact RC1|split; [exact D1|reflexivity]].
    + eexists _, x1. split; [reflexivity|]. split; [exact P|]. split; [exact RC1|split; [exact D1|reflexivity]].
    + eexists _, x1. split; [reflexivity|]. split; [exact P|]. split; [exact RC1|split; [exact D1|]]. intros NE. now elim (NE e).
Qed.
Lemma look_step F s n x room : readable xml F -> nth_error (c_rdrs s) n = Some (Some x) -> rinv F x -> f_reclen F <= Z.of_nat room ->
  cstep dh xml doy year s (PtGetData (PRd n) room) = Ok (s, Bytes (r_data x)).
Proof.
  intros RF E I R. destruct (reader_pt xml F x RF I) as (_ & LP). pose proof I as (SH & _). rewrite (shows_reclen F _ SH) in LP.
  unfold cstep. cbv zeta. cbn [pt_valid point_at]. unfold object. rewrite E. cbn [obind r_point p_hdr p_data]. rewrite (shows_reclen F _ SH).
  rewrite (proj2 (Nat.ltb_ge _ _)) by lia. rewrite (proj2 (Nat.ltb_ge _ _)) by lia. cbn [orb]. rewrite firstn_all2 by lia. reflexivity.
Qed.
Lemma looks_run F n room : readable xml F -> f_reclen F <= Z.of_nat room -> forall ops s x c, Forall next_or_seek ops -> nth_error (c_rdrs s) n = Some (Some x) -> rcur F x c ->
  exists t x1 c1, crun dh xml doy year s (looks n room ops) = Ok (t, sees n ops (cur_run F (c, r_data x) ops)) /\ nth_error (c_rdrs t) n = Some (Some x1) /\ rcur F x1 c1 /\
    (c1, r_data x1) = fold_left (fun st o => fst (cur_step F st o)) ops (c, r_data x) /\
    (Forall (fun y => forall e, fst y <> AError e) (cur_run F (c, r_data x) ops) -> c_errs t = c_errs s).
Proof.
  intros RF R. induction ops as [|o ops IH]; intros s x c NS E RC; cbn [looks flat_map crun sees combine cur_run fold_left].
  - exists s, x, c. cbn. auto.
  - inversion NS as [|? ? N1 N2]; subst. destruct (request_step F s n x c o RF E RC N1) as (t & x1 & C1 & E1 & RC1 & D1 & ER1).
    rewrite <- app_assoc. rewrite crun_app, C1. cbn [obind app crun].
    rewrite (look_step F t n x1 room RF E1 (proj1 RC1) R). cbn [obind].
    destruct (IH t x1 _ N2 E1 RC1) as (u & x2 & c2 & C2 & E2 & RC2 & D2 & ER2). fold (looks n room ops). rewrite C2. cbn [obind].
    destruct (cur_step F (c, r_data x) o) as [[c' d'] a'] eqn:CS. cbn [fst snd] in *. subst d'.
    exists u, x2, c2. split; [cbn [combine flat_map fst snd app]; reflexivity|]. split; [exact E2|]. split; [exact RC2|]. split; [exact D2|].
    intros FE. inversion FE as [|? ? F1 F2]; subst. cbn [fst] in F1. rewrite (ER2 F2). apply ER1. exact F1.
Qed.
Lemma create_run F s : readable xml F -> exists t x, cstep dh xml doy year s (RdCreate F) = Ok (t, RPtr (At (length (c_rdrs s)))) /\ nth_error (c_rdrs t) (length (c_rdrs s)) = Some (Some x) /\
  rcur F x 0 /\ r_data x = repeat 0 (Z.to_nat (f_reclen F)) /\ c_errs t = c_errs s.
Proof.
  intros (LF & RS & _). destruct (open_ok_x xml doy year F LF RS) as (x & E & I & C0 & D0 & _). unfold cstep. cbv zeta. rewrite E.
  eexists _, x. split; [reflexivity|]. split; [cbn [c_rdrs set_rdrs]; rewrite nth_error_app2, Nat.sub_diag by lia; reflexivity|]. split; [|auto].
  split; [exact I|]. split; [exact C0|]. destruct (fields_nonneg F (proj1 LF)). split; lia.
Qed.
Lemma c_reading F s ops room : readable xml F -> f_reclen F <= Z.of_nat room -> Forall next_or_seek ops ->
  exists t, crun dh xml doy year s (RdCreate F :: looks (length (c_rdrs s)) room ops) =
    Ok (t, RPtr (At (length (c_rdrs s))) :: sees (length (c_rdrs s)) ops (cur_run F (0, repeat 0 (Z.to_nat (f_reclen F))) ops)).
Proof.
  intros RF R NS. destruct (create_run F s RF) as (t & x & C & E & RC & D & _). cbn [crun]. rewrite C. cbn [obind].
  destruct (looks_run F _ room RF R ops t x 0 NS E RC) as (u & _ & _ & L & _). rewrite L. cbn [obind]. rewrite D. eauto.
Qed.
Lemma cur_nexts F k : forall c d, 0 <= c -> c + Z.of_nat k <= f_npts F ->
  cur_run F (c, d) (repeat RNext k) = map (fun i => (ATrue, file_record F (c + Z.of_nat i))) (seq 0 k) /\
  exists d', fold_left (fun st o => fst (cur_step F st o)) (repeat RNext k) (c, d) = (c + Z.of_nat k, d').
Proof.
  induction k; intros c d P L; cbn [repeat cur_run fold_left cur_step seq map].
  - split; [reflexivity|]. exists d. now rewrite Z.add_0_r.
  - rewrite (proj2 (Z.ltb_lt c (f_npts F))) by lia. cbn [fst snd]. destruct (IHk (c + 1) (file_record F c) ltac:(lia) ltac:(lia)) as (A & d' & B). rewrite A, B. split.
    + f_equal; [now rewrite Z.add_0_r|]. rewrite <- seq_shift, map_map. apply map_ext. intros i. do 2 f_equal. lia.
    + exists d'. f_equal. lia.
Qed.
Lemma c_all_points F s room : readable xml F -> f_reclen F <= Z.of_nat room ->
  let n := length (c_rdrs s) in let N := Z.to_nat (f_npts F) in
  exists t, crun dh xml doy year s (RdCreate F :: flat_map (fun _ => [RdNext (At n); PtGetData (PRd n) room]) (seq 0 N) ++ [RdNext (At n)]) =
    Ok (t, RPtr (At n) :: flat_map (fun rec => [PPtr (PRd n); Bytes rec]) (records_from F 0) ++ [PPtr PNull]) /\ c_errs t = c_errs s.
Proof.
  intros RF R n N. destruct (create_run F s RF) as (t & x & C & E & RC & D & EE). fold n in C, E. cbn [crun]. rewrite C. cbn [obind]. rewrite crun_app.
  assert (FN : 0 <= f_npts F) by (destruct RF as (LF & _); destruct (fields_nonneg F (proj1 LF)); lia).
  assert (X : flat_map (fun _ : nat => [RdNext (At n); PtGetData (PRd n) room]) (seq 0 N) = looks n room (repeat RNext N)).
  { unfold looks. generalize 0%nat. induction N; intros k; cbn [seq flat_map repeat]; [reflexivity|]. rewrite IHN. reflexivity. }
  rewrite X. assert (NS : Forall next_or_seek (repeat RNext N)) by (clear; induction N; constructor; [exact I|assumption]).
  destruct (looks_run F n room RF R _ t x 0 NS E RC) as (u & x1 & c1 & L & E1 & RC1 & FL & ER1).
  destruct (cur_nexts F N 0 (r_data x) ltac:(lia) ltac:(unfold N; lia)) as (CN & d' & FD). rewrite FD in FL. apply (f_equal fst) in FL. cbn [fst] in FL. subst c1.
  rewrite L. cbn [obind]. destruct (request_step F u n x1 _ RNext RF E1 RC1 I) as (v & x2 & C2 & _ & _ & _ & ER2).
  assert (CS : cur_step F (0 + Z.of_nat N, r_data x1) RNext = ((0 + Z.of_nat N, r_data x1), AFalse)).
  { unfold cur_step. rewrite (proj2 (Z.ltb_ge (0 + Z.of_nat N) (f_npts F))) by (unfold N; lia). reflexivity. }
  rewrite CS in C2, ER2. cbn [snd reply request] in C2, ER2. rewrite C2. cbn [obind]. exists v. split.
  - do 3 f_equal. f_equal. rewrite CN. unfold sees, records_from. rewrite Z.sub_0_r. fold N. clear. generalize 0%nat. induction N; intros k; cbn [repeat seq map combine flat_map]; [reflexivity|]. rewrite IHN. reflexivity.
  - rewrite ER2 by (intros; discriminate). rewrite ER1; [exact EE|]. rewrite CN. apply Forall_forall. intros y Iy. apply in_map_iff in Iy as (i & <- & _). intros; discriminate.
Qed.
(** the C reader answers as the C++ reader *)
Lemma request_same s n x x1 o a : nth_error (c_rdrs s) n = Some (Some x) -> o <> RReset -> rop_run xml x o = (x1, Ok a) ->
  exists t, crun dh xml doy year s (request n o) = Ok (t, [reply n o a]) /\ nth_error (c_rdrs t) n = Some (Some x1).
Proof.
  intros E NR ER. assert (P : nth_error (c_rdrs (set_rdrs s (put (c_rdrs s) n x1))) n = Some (Some x1)) by (eapply set_same; exact E).
  destruct o as [|i|i|]; [| | |contradiction]; cbn [rop_run request] in *; cbn [crun]; unfold cstep; cbv zeta; cbn [valid]; unfold object; rewrite E; cbn [obind].
  - destruct (reader_next no_filter no_transform x tt) as (rf, b) eqn:N. apply (f_equal fst) in ER as E1. apply (f_equal snd) in ER as E2. cbn [fst snd] in E1, E2. clear ER. rewrite E1.
    destruct b as [[]|e|u]; cbn [ans of_bool] in E2; try discriminate; apply Ok_inj in E2; rewrite <- E2; cbn [obind reply]; eexists; (split; [reflexivity|exact P]).
  - destruct (reader_at no_transform x i) as (rf, b) eqn:N. apply (f_equal fst) in ER as E1. apply (f_equal snd) in ER as E2. cbn [fst snd] in E1, E2. clear ER. rewrite E1.
    destruct b as [[]|e|u]; cbn [ans of_bool] in E2; try discriminate; apply Ok_inj in E2; rewrite <- E2; cbn [obind reply]; eexists; (split; [reflexivity|exact P]).
  - destruct (reader_seek x i) as (rf, b) eqn:N. apply (f_equal fst) in ER as E1. apply (f_equal snd) in ER as E2. cbn [fst snd] in E1, E2. clear ER. rewrite E1.
    destruct b as [[]|e|u]; cbn [ans of_bool] in E2; try discriminate; apply Ok_inj in E2; rewrite <- E2; cbn [obind reply]; eexists; (split; [reflexivity|exact P]).
Qed.
Lemma looks_same F n room : readable xml F -> f_reclen F <= Z.of_nat room -> forall ops s x x1 obs, Forall rop_ok ops -> Forall (fun o => o <> RReset) ops ->
  nth_error (c_rdrs s) n = Some (Some x) -> rinv F x -> rops_run xml x ops = Ok (x1, obs) ->
  exists t, crun dh xml doy year s (looks n room ops) = Ok (t, sees n ops obs) /\ nth_error (c_rdrs t) n = Some (Some x1).
Proof.
  intros RF R. pose proof RF as (LF & RS & FS & CO & _). induction ops as [|o ops IH]; intros s x x1 obs RO NR E RI RR; cbn [rops_run] in RR.
  - apply Ok_inj in RR. apply (f_equal fst) in RR as R1. apply (f_equal snd) in RR as R2. cbn in R1, R2. subst. exists s. split; [reflexivity|exact E].
  - inversion RO as [|? ? O1 O2]; subst. inversion NR as [|? ? N1 N2]; subst.
    destruct (rop_inv_x xml F x o LF RS FS CO O1 RI) as (x2 & a & ER & I2). rewrite ER in RR. cbn [obind] in RR.
    destruct (rops_run xml x2 ops) as [[x3 ob]|e|u] eqn:RR2; cbn [obind] in RR; try discriminate.
    apply Ok_inj in RR. apply (f_equal fst) in RR as R1. apply (f_equal snd) in RR as R2. cbn [fst snd] in R1, R2. subst x3 obs. clear RR.
    destruct (request_same s n x x2 o a E N1 ER) as (t & C1 & E1). destruct (IH t x2 x1 ob O2 N2 E1 I2 RR2) as (u & C2 & E2).
    exists u. split; [|exact E2]. cbn [looks flat_map]. rewrite <- app_assoc, crun_app, C1. cbn [obind app crun]. rewrite (look_step F t n x2 room RF E1 I2 R). cbn [obind].
    fold (looks n room ops). rewrite C2. cbn [obind]. reflexivity.
Qed.
Lemma c_same F s ops room : readable xml F -> f_reclen F <= Z.of_nat room -> Forall rop_ok ops -> Forall (fun o => o <> RReset) ops ->
  exists r r1 obs t, reader_open xml doy year F = Ok r /\ rops_run xml r ops = Ok (r1, obs) /\
    crun dh xml doy year s (RdCreate F :: looks (length (c_rdrs s)) room ops) = Ok (t, RPtr (At (length (c_rdrs s))) :: sees (length (c_rdrs s)) ops obs).
Proof.
  intros RF R RO NR. pose proof RF as (LF & RS & FS & CO & _). destruct (open_ok_x xml doy year F LF RS) as (r & E & I & _).
  destruct (rops_inv_x xml F ops r LF RS FS CO RO I) as (r1 & obs & RR & _). exists r, r1, obs.
  assert (C : cstep dh xml doy year s (RdCreate F) = Ok (set_rdrs s (c_rdrs s ++ [Some r]), RPtr (At (length (c_rdrs s))))) by (unfold cstep; cbv zeta; now rewrite E).
  destruct (looks_same F (length (c_rdrs s)) room RF R ops (set_rdrs s (c_rdrs s ++ [Some r])) r r1 obs RO NR) as (t & L & _).
  { cbn [c_rdrs set_rdrs]. rewrite nth_error_app2, Nat.sub_diag by lia. reflexivity. } { exact I. } { exact RR. }
  exists t. split; [exact E|]. split; [exact RR|]. cbn [crun]. rewrite C. cbn [obind]. rewrite L. reflexivity.
Qed.
End read.

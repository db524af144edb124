(** las2las: the whole run, in one file or split. *)
From Coq Require Import ZArith List Bool Lia String.
From Coq Require Import ZifyBool ZifyNat.
Import ListNotations.
From Verif Require Import Outcome Bytes Float64 Float64_Proofs CStr Vlr_Model Schema_Model Schema_Spec Header_Model Point_Model Point_Spec Point_Api Point_Proofs Point_Hist
  Coord_Api Coord_Proofs Coord_Header Stream_Model Stream_Proofs IO_Spec Reader_Proofs Reader_Vlrs Reader_Model Reader_Spec Reader_Schema Reader_Api Reader_Open Reader_Hist Reader_Filter
  Writer_Model Writer_Api Writer_Proofs Rewrite_Proofs Prop_Reader Iter_Spec Iter_Model Iter_Proofs Prop_Rewrite
  Summary_Model Summary_Spec Summary_Proofs Prop_Summary Text_Model Text_Proofs
  Las2las_Spec Las2las_Copy Las2las_Model Las2las_Summary Las2las_File Las2las_Loop Las2las_Points Las2las_Main.
Local Open Scope Z_scope.
Local Notation length := List.length (only parsing).

(** ** what the reader delivers *)
Lemma delivered_ok t F keep fuel : standard F -> filterable F keep -> (Z.to_nat (f_npts F) < fuel)%nat ->
  exists r r1, reader_open (t_xml t) (t_doy t) (t_year t) F = Ok r /\
    read_all (the_filter keep) fuel r tt = Ok (delivered F (r_hdr r) keep, true, r1, tt) /\ rinv F r1.
Proof.
  intros (HA & HP) HK Hf. pose proof HA as (HF & HN & FS & HC). pose proof (proj1 HF) as HB. destruct (fields_nonneg F HB) as (_ & N0 & _).
  destruct (open_reads (t_xml t) (t_doy t) (t_year t) F HA) as (r & E & R & _). exists r.
  destruct keep as [k|]; cbn [the_filter delivered].
  - destruct HK as (HE & HN1); [discriminate|].
    destruct (open_ok (t_xml t) (t_doy t) (t_year t) F HF HN) as (r' & E' & Hi & Hc & _). rewrite E in E'. apply Writer_Append.Ok_inj in E'. subst r'.
    destruct (read_all_from F (r_hdr r) k HF (proj1 HC) HE HN1 fuel 0 r) as (r1 & ER & I1 & _).
    + now rewrite Z.sub_0_r.
    + split; [exact Hi|]. split; [reflexivity|]. split; [exact Hc|]. split; [lia|]. lia.
    + exists r1. split; [exact E|]. split; [rewrite ER; reflexivity|exact I1].
  - destruct (read_plain fuel F 0 _ r R ltac:(lia) ltac:(lia)) as (r1 & ER & I1). exists r1. auto.
Qed.

Lemma removelast_incl {A} (l : list A) x : In x (removelast l) -> In x l.
Proof.
  induction l as [|a l IH]; cbn [removelast]; [tauto|]. destruct l as [|b l]; [intros []|]. intros [H|H]; [now left|right; now apply IH].
Qed.
Lemma removelast_len {A} (l : list A) : (length (removelast l) <= length l)%nat.
Proof. induction l as [|a l IH]; cbn [removelast List.length]; [lia|]. destruct l as [|b l]; cbn [List.length] in *; lia. Qed.
Lemma filter_len {A} (f : A -> bool) l : (length (filter f l) <= length l)%nat.
Proof. induction l as [|a l IH]; cbn [filter List.length]; [lia|]. destruct (f a); cbn [List.length]; lia. Qed.
Lemma delivered_recs F h keep : standard F -> recs_ok F (delivered F h keep).
Proof.
  intros (HA & HP). pose proof HA as (HF & HN & FS & HC). pose proof (proj1 HF) as HB. destruct (fields_nonneg F HB) as (_ & N0 & _).
  assert (LR : length (records_from F 0) = Z.to_nat (f_npts F)) by (unfold records_from; rewrite map_length, seq_length; f_equal; lia).
  assert (K : (length (delivered F h keep) <= length (records_from F 0))%nat /\ forall d, In d (delivered F h keep) -> In d (records_from F 0)).
  { destruct keep as [k|]; cbn [delivered]; [|auto]. cbv zeta. destruct (isolated_last _ _).
    - split; [eapply Nat.le_trans; [apply removelast_len|apply filter_len]|]. intros d Hd. apply removelast_incl, filter_In in Hd. apply Hd.
    - split; [apply filter_len|]. intros d Hd. apply filter_In in Hd. apply Hd. }
  destruct K as (K1 & K2). split; [|lia].
  apply Forall_forall. intros d Hd. apply K2 in Hd. unfold records_from in Hd. apply in_map_iff in Hd. destruct Hd as (i & <- & Hi). apply in_seq in Hi.
  split; [now apply file_record_bytes|]. rewrite (file_record_length F (0 + Z.of_nat i) HC HB ltac:(lia)). destruct HC as (C & _). lia.
Qed.

(** ** one file *)
Lemma feed_one t h ps : forall l q w, cs_feed (l_cs l) ps = Ok q -> write_points (l_w l) ps = Ok w ->
  exists b n, feed t h 0 0 l ps = Ok (mkLoop w q b n (l_done l)).
Proof.
  induction ps as [|p ps IH]; intros l q w EQ EW; cbn [cs_feed write_points feed] in *.
  - apply Writer_Append.Ok_inj in EQ, EW. subst. exists (l_bytes l), (l_pts l). now destruct l.
  - unfold one_point. destruct (cs_add (l_cs l) p) as [q1| |]; try discriminate. destruct (write_point (l_w l) p) as [w1| |]; try discriminate. cbn [obind] in *.
    change (0 <? 0) with false. rewrite !andb_false_r. cbn [andb obind].
    exact (IH (mkLoop w1 q1 (to_signed 32 (l_bytes l - schema_bytes (h_schema h))) ((l_pts l + 1) mod 2 ^ 32) (l_done l)) q w EQ EW).
Qed.

Lemma session_split sv h ps G : write_file sv h ps = Ok G ->
  exists w0 w, writer_new sv (os_open []) h = Ok w0 /\ write_points w0 ps = Ok w /\ writer_close w = Ok G.
Proof.
  unfold write_file, write_session. destruct (writer_new sv (os_open []) h) as [w0| |]; try discriminate. cbn [obind].
  destruct (write_points w0 ps) as [w| |] eqn:E; try discriminate. cbn [obind]. intros C. eauto 10.
Qed.

Theorem las2las_one t F keep fuel : standard F -> gap F <= 2 -> u_at F 25 1 <> 0 \/ gap F <> 1 -> sane_scaling F -> t_text t = text16 ->
  filterable F keep -> (Z.to_nat (f_npts F) < fuel)%nat ->
  exists r G, reader_open (t_xml t) (t_doy t) (t_year t) F = Ok r /\
    las2las t 0 0 (the_filter keep) tt fuel F = Ok [G] /\ finished F (r_hdr r) (delivered F (r_hdr r) keep) G.
Proof.
  intros HS HG Hv SS TT HK Hf. destruct (part_ok t F HS HG Hv SS TT) as (r & E & Sh & P).
  destruct (delivered_ok t F keep fuel HS HK Hf) as (r' & r1 & E' & RA & I1). rewrite E in E'. apply Writer_Append.Ok_inj in E'. subst r'.
  set (h := r_hdr r) in *. set (ds := delivered F h keep) in *.
  destruct (P ds (delivered_recs F h keep HS)) as (G & EW & _ & q & G' & EQ & ER & FI). exists r, G'. split; [exact E|]. split; [|exact FI].
  unfold las2las. rewrite E. cbn [obind]. fold h.
  destruct (session_split _ _ _ _ EW) as (w0 & w & E0 & EP & EC). rewrite E0. cbn [obind].
  rewrite (loop_feeds t h 0 0 (the_filter keep) fuel r tt _ ds r1 tt RA). fold h. change (map (fun d => mkPoint d h) ds) with (points_of h ds).
  destruct (feed_one t h (points_of h ds) (mkLoop w0 cs_new (split_budget 0) 0 []) q w EQ EP) as (b & n & EF). rewrite EF. cbn [obind l_w l_cs l_done].
  rewrite EC. cbn [obind]. change (0 =? 0) with true. cbn [andb].
  pose proof HS as ((HF & HN & FS & HC) & _).
  destruct (reset_ok (t_xml t) F r1 HF HN FS I1) as (r2 & -> & _). cbn [obind]. rewrite ER. reflexivity.
Qed.

(** ** split *)
(** [j] points since the last split *)
Definition cnt (F : list Z) (mb sp : Z) (l : loop) (j : Z) : Prop :=
  if 0 <? sp then l_pts l = j else l_bytes l = to_signed 32 (mb * 2 ^ 20 - j * f_reclen F).

Lemma to_signed_eq a b : a mod 2 ^ 32 = b mod 2 ^ 32 -> to_signed 32 a = to_signed 32 b.
Proof. intros H. unfold to_signed. now rewrite H. Qed.
Lemma to_signed_cong z : to_signed 32 z mod 2 ^ 32 = z mod 2 ^ 32.
Proof.
  unfold to_signed. destruct (_ <? _); [apply Z.mod_mod; lia|].
  replace (z mod 2 ^ 32 - 2 ^ 32) with (z mod 2 ^ 32 + (-1) * 2 ^ 32) by lia. rewrite Z.mod_add by lia. apply Z.mod_mod. lia.
Qed.
Lemma to_signed_sub z d : to_signed 32 (to_signed 32 z - d) = to_signed 32 (z - d).
Proof. apply to_signed_eq. rewrite Zminus_mod, to_signed_cong, <- Zminus_mod. reflexivity. Qed.
Lemma to_signed_lt z : (to_signed 32 z <? 0) = (2 ^ 31 <=? z mod 2 ^ 32).
Proof.
  pose proof (Z.mod_pos_bound z (2 ^ 32) ltac:(lia)) as M. unfold to_signed. change (2 ^ (32 - 1)) with (2 ^ 31).
  destruct (Z.ltb_spec (z mod 2 ^ 32) (2 ^ 31)); destruct (Z.leb_spec (2 ^ 31) (z mod 2 ^ 32)); lia.
Qed.

(** the sign of the budget after [j + 1] points *)
Lemma budget_sign mb len j : 0 < len < 2 ^ 16 -> 0 <= j < limit mb / len + 1 ->
  (to_signed 32 (mb * 2 ^ 20 - j * len - len) <? 0) = negb (j + 1 <? limit mb / len + 1).
Proof.
  intros Hl Hj. rewrite to_signed_lt. unfold limit in *. cbv zeta in *.
  pose proof (Z.mod_pos_bound (mb * 2 ^ 20) (2 ^ 32) ltac:(lia)) as M.
  assert (E : (mb * 2 ^ 20 - j * len - len) mod 2 ^ 32 = ((mb * 2 ^ 20) mod 2 ^ 32 - (j + 1) * len) mod 2 ^ 32).
  { replace (mb * 2 ^ 20 - j * len - len) with (mb * 2 ^ 20 - (j + 1) * len) by ring. now rewrite Zminus_mod_idemp_l. }
  rewrite E. clear E.
  assert (MM : (mb * 2 ^ 20) mod 2 ^ 32 = 2 ^ 20 * (mb mod 2 ^ 12)).
  { rewrite Z.mul_comm. change (2 ^ 32) with (2 ^ 20 * 2 ^ 12). apply Z.mul_mod_distr_l; lia. }
  set (b := (mb * 2 ^ 20) mod 2 ^ 32) in *. set (m := mb mod 2 ^ 12) in *. clearbody b m.
  destruct (Z.leb_spec b (2 ^ 31)) as [L|L].
  - pose proof (Z.div_mod b len ltac:(lia)) as DM. pose proof (Z.mod_pos_bound b len ltac:(lia)) as MB. set (c := b / len) in *. set (d := b mod len) in *. clearbody c d.
    destruct (Z.ltb_spec (j + 1) (c + 1)) as [Y|Y]; cbn [negb].
    + assert (0 <= b - (j + 1) * len) by nia. assert (0 < (j + 1) * len) by nia. rewrite Z.mod_small by lia. destruct (Z.leb_spec (2 ^ 31) (b - (j + 1) * len)); [lia|reflexivity].
    + assert (X : j = c) by lia. subst j. assert (X : b - (c + 1) * len = d - len) by lia. rewrite X.
      rewrite <- (Z.mod_unique (d - len) (2 ^ 32) (-1) (d - len + 2 ^ 32)) by lia. destruct (Z.leb_spec (2 ^ 31) (d - len + 2 ^ 32)); [reflexivity|lia].
  - rewrite Z.div_0_l in * by lia. assert (j = 0) by lia. subst j. assert (2049 <= m) by lia. cbn [Z.add Z.ltb Z.compare negb]. change (0 + 1 <? 0 + 1) with false.
    rewrite Z.mul_1_l. rewrite Z.mod_small by lia. destruct (Z.leb_spec (2 ^ 31) (b - len)); [reflexivity|lia].
Qed.

Section Split.
Variables (t : tool) (F : list Z) (h : header) (mb sp : Z).
Hypothesis SB : schema_bytes (h_schema h) = f_reclen F.
Hypothesis RL : 0 < f_reclen F < 2 ^ 16.
Hypothesis SO : split_ok mb sp.
Let k := quota F mb sp.

Lemma quota_pos : 0 < k.
Proof.
  unfold k, quota. destruct SO as [(-> & H)|(H & ->)]; [destruct (Z.ltb_spec 0 sp); lia|]. cbn [Z.ltb Z.compare].
  assert (0 <= limit mb) by (unfold limit; cbv zeta; pose proof (Z.mod_pos_bound (mb * 2 ^ 20) (2 ^ 32) ltac:(lia)); destruct (_ <=? _); lia).
  pose proof (Z.div_pos (limit mb) (f_reclen F)). lia.
Qed.
Lemma one_step l p q w j : cs_add (l_cs l) p = Ok q -> write_point (l_w l) p = Ok w -> cnt F mb sp l j -> 0 <= j < k ->
  exists b n, one_point t h mb sp l p = (if j + 1 <? k then Ok (mkLoop w q b n (l_done l)) else (let bn := if 0 <? sp then (b, 0) else (split_budget mb, n) in
      next_file t h (mkLoop w q b n (l_done l)) (fst bn) (snd bn))) /\
    (j + 1 < k -> cnt F mb sp (mkLoop w q b n (l_done l)) (j + 1)).
Proof.
  intros EQ EW C Hj. unfold one_point. rewrite EQ. cbn [obind]. rewrite EW. cbn [obind]. cbv zeta. rewrite SB.
  exists (to_signed 32 (l_bytes l - f_reclen F)), ((l_pts l + 1) mod 2 ^ 32). cbn [l_bytes l_pts]. unfold cnt, k, quota in *.
  destruct SO as [(-> & H)|(H & ->)].
  - destruct (Z.ltb_spec 0 sp) as [_|]; [|lia]. change (0 <? 0) with false. rewrite andb_false_r. cbn [andb obind l_pts l_bytes]. change (0 =? 0) with true. cbn [andb].
    rewrite C. rewrite Z.mod_small by lia. destruct (Z.eqb_spec (j + 1) sp) as [X|X]; destruct (Z.ltb_spec (j + 1) sp); try lia; split; try reflexivity; intros; cbn [l_pts]; lia.
  - change (0 <? 0) with false in *. cbn [andb]. cbv iota in *. rewrite C, to_signed_sub. rewrite budget_sign by (assumption || lia).
    change (0 =? 0) with true. rewrite andb_true_r. destruct (Z.ltb_spec 0 mb) as [_|]; [|lia]. rewrite andb_true_r.
    destruct (Z.ltb_spec (j + 1) (limit mb / f_reclen F + 1)) as [Y|Y]; cbn [negb obind fst snd].
    + split; [reflexivity|]. intros _. cbn [l_bytes]. f_equal. ring.
    + split; [|intros; lia]. destruct (next_file _ _ _ _ _); reflexivity.
Qed.

Lemma feed_part ps : forall l j q w, cs_feed (l_cs l) ps = Ok q -> write_points (l_w l) ps = Ok w -> cnt F mb sp l j -> 0 <= j -> j + Z.of_nat (length ps) < k ->
  exists b n, feed t h mb sp l ps = Ok (mkLoop w q b n (l_done l)) /\ cnt F mb sp (mkLoop w q b n (l_done l)) (j + Z.of_nat (length ps)).
Proof.
  induction ps as [|p ps IH]; intros l j q w EQ EW C Hj HL; cbn [cs_feed write_points feed List.length] in *.
  - apply Writer_Append.Ok_inj in EQ, EW. subst. exists (l_bytes l), (l_pts l). replace (j + Z.of_nat 0) with j by lia. destruct l as [lw lc lb lp ld]. cbn [l_w l_cs l_bytes l_pts l_done]. split; [reflexivity|exact C].
  - destruct (cs_add (l_cs l) p) as [q1| |] eqn:E1; try discriminate. destruct (write_point (l_w l) p) as [w1| |] eqn:E2; try discriminate. cbn [obind] in EQ, EW.
    destruct (one_step l p q1 w1 j E1 E2 C ltac:(lia)) as (b & n & EO & C1). rewrite EO. destruct (Z.ltb_spec (j + 1) k); [|lia]. cbn [obind].
    destruct (IH (mkLoop w1 q1 b n (l_done l)) (j + 1) q w EQ EW (C1 ltac:(lia)) ltac:(lia) ltac:(lia)) as (b2 & n2 & EF & C2).
    exists b2, n2. split; [exact EF|]. replace (j + Z.of_nat (S (length ps))) with (j + 1 + Z.of_nat (length ps)) by lia. exact C2.
Qed.

Lemma cs_feed_app a : forall q b, cs_feed q (a ++ b) = (let! q := cs_feed q a in cs_feed q b).
Proof. induction a as [|p a IH]; intros q b; cbn [app cs_feed]; [reflexivity|]. destruct (cs_add q p); cbn [obind]; [apply IH|reflexivity|reflexivity]. Qed.
Lemma write_points_app a : forall w b, write_points w (a ++ b) = (let! w := write_points w a in write_points w b).
Proof. induction a as [|p a IH]; intros q b; cbn [app write_points]; [reflexivity|]. destruct (write_point q p); cbn [obind]; [apply IH|reflexivity|reflexivity]. Qed.

Lemma feed_full ps l q w G w0 G' : cs_feed (l_cs l) ps = Ok q -> write_points (l_w l) ps = Ok w -> cnt F mb sp l 0 -> Z.of_nat (length ps) = k ->
  writer_close w = Ok G -> writer_new (t_sv t) (os_open []) h = Ok w0 -> repair_file t q G = Ok G' ->
  exists b n, feed t h mb sp l ps = Ok (mkLoop w0 cs_new b n (G' :: l_done l)) /\ cnt F mb sp (mkLoop w0 cs_new b n (G' :: l_done l)) 0.
Proof.
  intros EQ EW C HL EC E0 ER. pose proof quota_pos as KP. destruct (rev ps) as [|p rp] eqn:RV.
  { apply (f_equal (@List.length _)) in RV. rewrite rev_length in RV. cbn [List.length] in RV. lia. }
  assert (PS : ps = rev rp ++ [p]) by (rewrite <- (rev_involutive ps), RV; reflexivity). set (a := rev rp) in *.
  rewrite PS in *. rewrite app_length in HL. cbn [List.length] in HL. rewrite cs_feed_app in EQ. rewrite write_points_app in EW.
  destruct (cs_feed (l_cs l) a) as [q1| |] eqn:E1; try discriminate. destruct (write_points (l_w l) a) as [w1| |] eqn:E2; try discriminate. cbn [obind cs_feed write_points] in EQ, EW.
  destruct (cs_add q1 p) as [q2| |] eqn:E3; try discriminate. destruct (write_point w1 p) as [w2| |] eqn:E4; try discriminate. cbn [obind] in EQ, EW.
  apply Writer_Append.Ok_inj in EQ, EW. subst q2 w2.
  destruct (feed_part a l 0 q1 w1 E1 E2 C ltac:(lia) ltac:(lia)) as (b1 & n1 & EF & C1). rewrite feed_app, EF. cbn [obind feed].
  destruct (one_step (mkLoop w1 q1 b1 n1 (l_done l)) p q w (0 + Z.of_nat (length a)) E3 E4 C1 ltac:(lia)) as (b & n & EO & _). rewrite EO. destruct (Z.ltb_spec (0 + Z.of_nat (length a) + 1) k); [lia|].
  cbn [l_done]. unfold next_file. cbn [l_w l_cs l_done]. rewrite EC. cbn [obind]. rewrite E0. cbn [obind]. rewrite ER. cbn [obind].
  eexists _, _. split; [reflexivity|]. unfold cnt. cbn [l_pts l_bytes]. destruct SO as [(-> & H1)|(H1 & ->)].
  - destruct (Z.ltb_spec 0 sp); [reflexivity|lia].
  - change (0 <? 0) with false. cbv iota. cbn [fst]. unfold split_budget. f_equal. ring.
Qed.
End Split.

Lemma Forall_firstn {A} (P : A -> Prop) n l : Forall P l -> Forall P (firstn n l).
Proof. intros H. rewrite <- (firstn_skipn n l) in H. apply Forall_app in H. apply H. Qed.
Lemma Forall_skipn {A} (P : A -> Prop) n l : Forall P l -> Forall P (skipn n l).
Proof. intros H. rewrite <- (firstn_skipn n l) in H. apply Forall_app in H. apply H. Qed.
Lemma recs_firstn F n ds : recs_ok F ds -> recs_ok F (firstn n ds).
Proof. intros (D & L). split; [now apply Forall_firstn|]. pose proof (firstn_length n ds). lia. Qed.
Lemma recs_skipn F n ds : recs_ok F ds -> recs_ok F (skipn n ds).
Proof. intros (D & L). split; [now apply Forall_skipn|]. pose proof (skipn_length n ds). lia. Qed.

Lemma feed_split t F r mb sp : standard F -> split_ok mb sp -> shows_file F (r_hdr r) ->
  (forall ds, recs_ok F ds -> exists G, write_file (t_sv t) (r_hdr r) (points_of (r_hdr r) ds) = Ok G /\ unfinished F ds G /\
    exists q G', cs_feed cs_new (points_of (r_hdr r) ds) = Ok q /\ repair_file t q G = Ok G' /\ finished F (r_hdr r) ds G') ->
  forall n ds l w0, (length ds <= n)%nat -> recs_ok F ds -> writer_new (t_sv t) (os_open []) (r_hdr r) = Ok w0 -> l_w l = w0 -> l_cs l = cs_new -> cnt F mb sp l 0 ->
  exists l' gs G, feed t (r_hdr r) mb sp l (points_of (r_hdr r) ds) = Ok l' /\ l_done l' = rev gs ++ l_done l /\ writer_close (l_w l') = Ok G /\
    split_into F (r_hdr r) (quota F mb sp) ds gs G.
Proof.
  intros HS SO Sh P. pose proof HS as (HA & HP). pose proof HA as (HF & _ & _ & HC). destruct (fields_nonneg F (proj1 HF)) as (_ & _ & RL0).
  assert (RL : 0 < f_reclen F < 2 ^ 16) by (split; [apply HC|apply RL0]).
  pose proof (shows_bytes F _ HF Sh) as SB. set (h := r_hdr r) in *. pose proof (quota_pos F mb sp RL SO) as KP. set (k := quota F mb sp) in *.
  induction n as [|n IH]; intros ds l w0 Hn HD E0 EW0 EC0 C.
  - (* no points *)
    destruct ds; [|cbn [List.length] in Hn; lia]. destruct (P [] HD) as (G & EW & UF & _). destruct (session_split _ _ _ _ EW) as (w0' & w & E0' & EP & EC).
    rewrite E0 in E0'. apply Writer_Append.Ok_inj in E0'. subst w0'. cbn [points_of map write_points] in EP. apply Writer_Append.Ok_inj in EP. subst w.
    exists l, [], G. cbn [points_of map feed rev app List.length]. split; [reflexivity|]. split; [reflexivity|]. split; [now rewrite EW0|].
    split; [reflexivity|]. split; [intros [|] g X; discriminate|exact UF].
  - destruct (Z_lt_le_dec (Z.of_nat (length ds)) k) as [L|L].
    + destruct (P ds HD) as (G & EW & UF & q & G' & EQ & _). destruct (session_split _ _ _ _ EW) as (w0' & w & E0' & EP & EC).
      rewrite E0 in E0'. apply Writer_Append.Ok_inj in E0'. subst w0'.
      destruct (feed_part t F h mb sp SB RL SO (points_of h ds) l 0 q w) as (b & m & EF & _); [now rewrite EC0|now rewrite EW0|exact C|lia|rewrite points_len; fold k; lia|].
      eexists _, [], G. split; [exact EF|]. cbn [l_done rev app l_w List.length]. split; [reflexivity|]. split; [exact EC|].
      split; [rewrite Z.div_small by lia; reflexivity|]. split; [intros [|] g X; discriminate|exact UF].
    + set (kn := Z.to_nat k) in *. assert (Lk : (kn <= length ds)%nat) by (unfold kn; lia).
      set (a := firstn kn ds). set (c := skipn kn ds). assert (La : length a = kn) by (unfold a; rewrite firstn_length; lia).
      assert (EDS : ds = a ++ c) by (symmetry; apply firstn_skipn).
      assert (Lc : length c = (length ds - kn)%nat) by (unfold c; apply skipn_length).
      destruct (P a (recs_firstn F kn ds HD)) as (G & EW & _ & q & G' & EQ & ER & FI). destruct (session_split _ _ _ _ EW) as (w0' & w & E0' & EP & EC).
      rewrite E0 in E0'. apply Writer_Append.Ok_inj in E0'. subst w0'.
      destruct (feed_full t F h mb sp SB RL SO (points_of h a) l q w G w0 G') as (b & m & EF & C1); auto; [now rewrite EC0|now rewrite EW0|rewrite points_len; fold k; unfold kn in La; lia|].
      destruct (IH c (mkLoop w0 cs_new b m (G' :: l_done l)) w0) as (l2 & gs & GL & EF2 & D2 & EC2 & S1 & S2 & S3); auto; [unfold kn in *; lia|exact (recs_skipn F kn ds HD)|].
      exists l2, (G' :: gs), GL. split; [|split; [|split; [exact EC2|]]].
      * unfold points_of. rewrite EDS, map_app. change (map (fun d => mkPoint d h) a) with (points_of h a). change (map (fun d => mkPoint d h) c) with (points_of h c).
        rewrite feed_app, EF. exact EF2.
      * rewrite D2. cbn [rev l_done]. now rewrite <- app_assoc.
      * split; [|split].
        -- cbn [List.length]. rewrite Nat2Z.inj_succ, S1, Lc. replace (Z.of_nat (length ds)) with (Z.of_nat (length ds - kn) + 1 * k) by (unfold kn in *; lia).
           rewrite Z.div_add by lia. replace (Z.of_nat (length ds) - k) with (Z.of_nat (length ds - kn)) by (unfold kn in *; lia). lia.
        -- intros [|i] g Hg; cbn [nth_error] in Hg.
           ++ injection Hg as <-. exact FI.
           ++ specialize (S2 i g Hg). unfold c in S2. rewrite skipn_skipn in S2. fold kn. replace (S i * kn)%nat with (i * kn + kn)%nat by lia. exact S2.
        -- cbn [List.length]. unfold c in S3. rewrite skipn_skipn in S3. fold kn. replace (S (length gs) * kn)%nat with (length gs * kn + kn)%nat by lia. exact S3.
Qed.

Theorem las2las_split t F keep fuel mb sp : standard F -> gap F <= 2 -> u_at F 25 1 <> 0 \/ gap F <> 1 -> sane_scaling F -> t_text t = text16 ->
  filterable F keep -> split_ok mb sp -> (Z.to_nat (f_npts F) < fuel)%nat ->
  exists r gs G, reader_open (t_xml t) (t_doy t) (t_year t) F = Ok r /\
    las2las t mb sp (the_filter keep) tt fuel F = Ok (gs ++ [G]) /\
    split_into F (r_hdr r) (quota F mb sp) (delivered F (r_hdr r) keep) gs G.
Proof.
  intros HS HG Hv SS TT HK SO Hf. destruct (part_ok t F HS HG Hv SS TT) as (r & E & Sh & P).
  destruct (delivered_ok t F keep fuel HS HK Hf) as (r' & r1 & E' & RA & I1). rewrite E in E'. apply Writer_Append.Ok_inj in E'. subst r'.
  pose proof (delivered_recs F (r_hdr r) keep HS) as HD.
  destruct (P [] (recs_firstn F 0 _ HD)) as (G0 & EW0 & _). destruct (session_split _ _ _ _ EW0) as (w0 & _ & E0 & _ & _).
  destruct (feed_split t F r mb sp HS SO Sh P (length (delivered F (r_hdr r) keep)) (delivered F (r_hdr r) keep) (mkLoop w0 cs_new (split_budget mb) 0 []) w0) as (l' & gs & G & EF & D & EC & SI); auto.
  { unfold cnt. cbn [l_pts l_bytes]. destruct SO as [(-> & H1)|(H1 & ->)].
    - destruct (Z.ltb_spec 0 sp); [reflexivity|lia].
    - change (0 <? 0) with false. cbv iota. unfold split_budget. f_equal. ring. }
  exists r, gs, G. split; [exact E|]. split; [|exact SI].
  unfold las2las. rewrite E. cbn [obind]. rewrite E0. cbn [obind].
  rewrite (loop_feeds t (r_hdr r) mb sp (the_filter keep) fuel r tt _ _ r1 tt RA).
  change (map (fun d => mkPoint d (r_hdr r)) (delivered F (r_hdr r) keep)) with (points_of (r_hdr r) (delivered F (r_hdr r) keep)). rewrite EF. cbn [obind].
  rewrite EC. cbn [obind].
  assert (Z0 : (mb =? 0) && (sp =? 0) = false) by (destruct SO as [(-> & H1)|(H1 & ->)]; lia).
  rewrite Z0, D. cbn [l_done rev]. rewrite app_nil_r, rev_involutive. reflexivity.
Qed.


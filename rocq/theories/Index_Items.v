(** What one cell of the index contributes to a query, and that reading its
    encoding computes it. *)
From Coq Require Import ZArith List Bool Lia.
From Coq Require Import ZifyBool ZifyNat.
Import ListNotations.
From Verif Require Import Outcome Bytes CStr Float64 Vlr_Model Bounds_Model Chipper_Spec Chipper_Lists Index_Cell Index_Out Index_Query Index_Spec.
Local Open Scope Z_scope.
Local Notation length := List.length (only parsing).

(** ** The decision about one point *)

Definition between (r : range) (v : f64) : bool := f64_ge v (rg_min r) && f64_le v (rg_max r).
Definition axis_accepts (a : axis) (c : Z) (v : f64) : bool :=
  ax_off a || ((ax_lin a <=? c) && (c <=? ax_hin a)) || (((c =? ax_lb a) || (c =? ax_hb a)) && between (ax_r a) v).
Definition accepts (q : query) (x y z : Z) (p : coords) : bool :=
  axis_accepts (q_x q) (to_signed 32 x) (c_x p) && axis_accepts (q_y q) (to_signed 32 y) (c_y p) && axis_accepts (q_z q) (to_signed 32 z) (c_z p).

Definition pt0 : coords := (f64_zero, f64_zero, f64_zero).
Definition pt_at (pts : list coords) (i : Z) : coords := nth (Z.to_nat i) pts pt0.

Lemma to_signed_small z : 0 <= z < 2 ^ 31 -> to_signed 32 z = z.
Proof. intros H. unfold to_signed. rewrite Z.mod_small by lia. destruct (z <? 2 ^ (32 - 1)) eqn:E; [reflexivity|]. change (2 ^ (32 - 1)) with (2 ^ 31) in E. lia. Qed.

Lemma rd_next_ok pts i : 0 <= i < lenB pts -> rd_next pts i = (Some (pt_at pts i), i + 1).
Proof.
  intros H. unfold rd_next. replace (i <? lenB pts) with true by lia. f_equal. unfold pt_at.
  apply nth_error_nth'. lia.
Qed.

(** the reader stands behind the last point looked at, if that was read *)
Definition behind (cur last : Z) (lastread : bool) : Prop :=
  (last = -1 /\ lastread = false) \/ (0 <= last < 2 ^ 31 - 1 /\ (lastread = true -> cur = last + 1)).

Lemma rd_point_ok pts cur pid last lr : lenB pts < 2 ^ 31 -> 0 <= pid < lenB pts -> behind cur last lr ->
  rd_point pts cur pid last lr = Ok (Some (pt_at pts pid), pid + 1).
Proof.
  intros HL HP HB. unfold rd_point. replace (last =? 2 ^ 31 - 1) with false by (destruct HB; lia).
  assert (X : (if (pid =? last + 1) && lr then rd_next pts cur else (None, cur)) = (Some (pt_at pts pid), pid + 1) \/
              exists c, (if (pid =? last + 1) && lr then rd_next pts cur else (None, cur)) = (None, c)).
  { destruct ((pid =? last + 1) && lr) eqn:E; [left|right; eauto]. destruct HB as [HB|(HB & K)]; [lia|]. replace cur with pid by lia. now apply rd_next_ok. }
  destruct X as [->|(c & ->)]; [reflexivity|]. rewrite (Z.mod_small pid) by lia.
  replace (pid =? lenB pts) with false by lia. replace (lenB pts <? pid) with false by lia. now rewrite rd_next_ok.
Qed.

(** the state of reading the point: not read, or read with the reader behind it *)
Definition pt_state (pts : list coords) (pid last : Z) (lr : bool) (st : option coords * Z) : Prop :=
  (fst st = None /\ behind (snd st) last lr) \/ st = (Some (pt_at pts pid), pid + 1).

Lemma test_axis_ok pts pid last lr a c get st : lenB pts < 2 ^ 31 -> 0 <= pid < lenB pts -> pt_state pts pid last lr st ->
  exists st', test_axis pts pid last lr a c get st = Ok (st', axis_accepts a c (get (pt_at pts pid))) /\ pt_state pts pid last lr st'.
Proof.
  intros HL HP HS. unfold test_axis, axis_accepts. destruct (ax_off a); cbn [orb]; [eauto|].
  destruct ((ax_lin a <=? c) && (c <=? ax_hin a)); cbn [orb]; [eauto|].
  destruct ((c =? ax_lb a) || (c =? ax_hb a)); cbn [andb]; [|eauto].
  assert (X : (match fst st with Some _ => Ok st | None => rd_point pts (snd st) pid last lr end) = Ok (Some (pt_at pts pid), pid + 1)).
  { destruct HS as [(E & B)| ->]; [rewrite E; now apply rd_point_ok|reflexivity]. }
  rewrite X. cbn [obind fst]. eexists. split; [reflexivity|]. right. reflexivity.
Qed.

Lemma fop_ok pts q x y z pid last lr cur : lenB pts < 2 ^ 31 -> 0 <= pid < lenB pts -> behind cur (to_signed 32 last) lr ->
  exists cur' lr', filter_one_point pts q x y z pid last lr cur = Ok (cur', lr', accepts q x y z (pt_at pts pid)) /\ (lr' = true -> cur' = pid + 1).
Proof.
  intros HL HP HB. unfold filter_one_point, accepts. rewrite (to_signed_small pid) by lia.
  destruct (test_axis_ok pts pid (to_signed 32 last) lr (q_x q) (to_signed 32 x) c_x (None, cur) HL HP (or_introl (conj eq_refl HB))) as (s1 & E1 & P1).
  rewrite E1. cbn [obind]. destruct (axis_accepts (q_x q) _ _) eqn:A1; cbn [andb].
  2:{ cbn [obind]. eexists _, _. split; [reflexivity|]. destruct P1 as [(E & _)| ->]; [rewrite E; discriminate|reflexivity]. }
  destruct (test_axis_ok pts pid (to_signed 32 last) lr (q_y q) (to_signed 32 y) c_y s1 HL HP P1) as (s2 & E2 & P2).
  rewrite E2. cbn [obind]. destruct (axis_accepts (q_y q) _ _) eqn:A2; cbn [andb].
  2:{ cbn [obind]. eexists _, _. split; [reflexivity|]. destruct P2 as [(E & _)| ->]; [rewrite E; discriminate|reflexivity]. }
  destruct (test_axis_ok pts pid (to_signed 32 last) lr (q_z q) (to_signed 32 z) c_z s2 HL HP P2) as (s3 & E3 & P3).
  rewrite E3. cbn [obind]. eexists _, _. split; [reflexivity|]. destruct P3 as [(E & _)| ->]; [rewrite E; discriminate|reflexivity].
Qed.

(** ** Going through a list of points, each conforming or not *)

Notation item := (Z * bool)%type.
(** list returned so far, iterator *)
Notation astate := (list Z * option iter)%type.
Definition a_full (a : astate) : bool := match snd a with Some i => it_chunk i <=? lenB (fst a) | None => false end.
Definition a_it (a : astate) (f : iter -> iter) : astate := (fst a, match snd a with Some i => Some (f i) | None => None end).
(** one conforming point *)
Definition a_push (a : astate) (id : Z) : astate :=
  match snd a with
  | Some i => let '(i, skip) := found_one i in (if skip then fst a else fst a ++ [id], Some i)
  | None => (fst a ++ [id], None)
  end.
Fixpoint walk (ignore : Z) (l : list item) (sc : Z) (a : astate) : Z * astate :=
  match l with
  | [] => (sc, a)
  | (id, good) :: l =>
      let sc := sc + 1 in
      let a := a_it a (add_cell 1) in
      let a := if (ignore <? sc) && good then a_push a id else a in
      if a_full a then (sc, a) else walk ignore l sc a
  end.
Definition abs (s : fstate) : astate := (fs_res s, fs_it s).

Lemma walk_app ig a b : forall sc st, walk ig (a ++ b) sc st =
  let '(sc1, st1) := walk ig a sc st in if a_full st1 && negb (match a with [] => true | _ => false end) then (sc1, st1) else walk ig b sc1 st1.
Proof.
  induction a as [|(id, g) a IH]; intros sc st; cbn [app walk]; [now rewrite andb_false_r|].
  set (st' := if (ig <? sc + 1) && g then _ else _). destruct (a_full st') eqn:F; [cbn [andb negb]; now rewrite F|].
  rewrite IH. destruct a as [|p a]; [cbn [walk]; rewrite F; reflexivity|]. reflexivity.
Qed.
(** starting from a state that is not full *)
Lemma walk_app' ig a b sc st : a_full st = false -> walk ig (a ++ b) sc st =
  let '(sc1, st1) := walk ig a sc st in if a_full st1 then (sc1, st1) else walk ig b sc1 st1.
Proof.
  intros F. rewrite walk_app. destruct a as [|p a]; [cbn [walk]; rewrite F; reflexivity|]. destruct (walk ig (p :: a) sc st). now rewrite andb_true_r.
Qed.
Lemma a_full_it a f : (forall i, it_chunk (f i) = it_chunk i) -> a_full (a_it a f) = a_full a.
Proof. intros H. destruct a as [r [i|]]; [|reflexivity]. unfold a_full, a_it. cbn. now rewrite H. Qed.
(** points that do not conform are only counted *)
Lemma walk_bad ig l : forall sc a, (forall p, In p l -> snd p = false) -> a_full a = false ->
  walk ig l sc a = (sc + lenB l, a_it a (add_cell (lenB l))).
Proof.
  induction l as [|(id, g) l IH]; intros sc a H F; cbn [walk].
  - cbn [List.length]. rewrite Z.add_0_r. f_equal. destruct a as [r [[]|]]; unfold a_it, add_cell; cbn; [|reflexivity]. now rewrite Z.add_0_r.
  - pose proof (H (id, g) (or_introl eq_refl)) as Hg. cbn [snd] in Hg. subst g. rewrite andb_false_r.
    rewrite a_full_it by reflexivity. rewrite F. rewrite IH; [|intros p Hp; apply H; now right|rewrite a_full_it by reflexivity; exact F].
    cbn [List.length]. f_equal; [lia|]. destruct a as [r [[]|]]; unfold a_it, add_cell; cbn; [|reflexivity]. do 3 f_equal. lia.
Qed.

Definition run_items (pts : list coords) (q : query) (x y z : Z) (test : bool) (r : Z * Z) : list item :=
  map (fun id => (id, test && accepts q x y z (pt_at pts id))) (zseq (fst r) (Z.to_nat (snd r))).

Lemma full_abs s : full s = a_full (abs s). Proof. reflexivity. Qed.

Lemma full_it s f : (forall i, it_chunk (f i) = it_chunk i) -> full (with_it s f) = full s.
Proof. intros H. unfold full, with_it. cbn [fs_it fs_res]. destruct (fs_it s) as [i|]; [now rewrite H|reflexivity]. Qed.
Lemma found_chunk i : it_chunk (fst (found_one i)) = it_chunk i. Proof. reflexivity. Qed.

Lemma series_walk pts q x y z ig n : lenB pts < 2 ^ 31 -> forall pid last lr sc s, full s = false ->
  0 <= pid -> pid + Z.of_nat n <= lenB pts -> (last = 2 ^ 32 - 1 /\ lr = false \/ last = pid - 1 /\ 0 <= last /\ (lr = true -> fs_cur s = pid)) -> (sc + 1 <= ig -> lr = false) ->
  exists s', series pts q x y z ig n pid last lr sc s = Ok (fst (walk ig (run_items pts q x y z true (pid, Z.of_nat n)) sc (abs s)), s') /\
    abs s' = snd (walk ig (run_items pts q x y z true (pid, Z.of_nat n)) sc (abs s)).
Proof.
  intros HL. induction n as [|n IH]; intros pid last lr sc s HF H0 H1 HB HI.
  - unfold run_items. cbn [series fst snd Z.of_nat Z.to_nat zseq map walk]. eauto.
  - assert (E : run_items pts q x y z true (pid, Z.of_nat (S n)) = (pid, accepts q x y z (pt_at pts pid)) :: run_items pts q x y z true (pid + 1, Z.of_nat n)).
    { unfold run_items. cbn [fst snd]. rewrite !Nat2Z.id, zseq_S. reflexivity. }
    rewrite E. cbn [series walk]. set (a := with_it s (add_cell 1)). change (a_it (abs s) (add_cell 1)) with (abs a).
    assert (FA : full a = false) by (unfold a; rewrite full_it; [exact HF|reflexivity]).
    assert (NX : (pid + 1) mod 2 ^ 32 = pid + 1) by (rewrite Z.mod_small; lia). rewrite NX.
    destruct (ig <? sc + 1) eqn:IG; cbn [andb].
    + assert (BH : behind (fs_cur a) (to_signed 32 last) lr).
      { destruct HB as [(-> & ->)|(HB & HB' & K)]; [left; split; reflexivity|]. right. rewrite to_signed_small by lia. split; [lia|]. intros HH. specialize (K HH). cbn [a with_it fs_cur]. lia. }
      destruct (fop_ok pts q x y z pid last lr (fs_cur a) HL ltac:(lia) BH) as (cur' & lr' & EF & K). rewrite EF. cbn [obind].
      destruct (accepts q x y z (pt_at pts pid)).
      * set (a1 := mkF (fs_res a) cur' (fs_it a)).
        set (P := match fs_it a1 with Some i => _ | None => _ end).
        assert (HP : a_push (abs a) pid = (if snd P then fs_res (fst P) else fs_res (fst P) ++ [pid], fs_it (fst P)) /\ fs_cur (fst P) = cur' /\ (snd P = true -> full (fst P) = false)).
        { unfold P, a_push, abs, a1. unfold full in *. cbn [fs_it fs_res fst snd]. destruct (fs_it a) as [i|]; [|now repeat split]. pose proof (found_chunk i) as FC. destruct (found_one i) as (i', sk). cbn [fst snd fs_res fs_it fs_cur] in *.
          split; [reflexivity|]. split; [reflexivity|]. intros _. rewrite FC. exact FA. }
        destruct P as (s1, skip). cbn [fst snd] in HP. destruct HP as (HP1 & HP2 & HP3). rewrite HP1. destruct skip.
        -- specialize (HP3 eq_refl). change (fs_res s1, fs_it s1) with (abs s1). rewrite <- full_abs, HP3.
           apply IH; [exact HP3|lia|lia| |lia]. right. split; [lia|]. split; [lia|]. rewrite HP2. exact K.
        -- set (s2 := mkF (fs_res s1 ++ [pid]) (fs_cur s1) (fs_it s1)). change (fs_res s1 ++ [pid], fs_it s1) with (abs s2). rewrite <- full_abs.
           destruct (full s2) eqn:NF; [eexists; split; reflexivity|].
           apply IH; [exact NF|lia|lia| |lia]. right. split; [lia|]. split; [lia|]. cbn [s2 fs_cur]. rewrite HP2. exact K.
      * change (abs a) with (abs (mkF (fs_res a) cur' (fs_it a))). rewrite <- full_abs. change (full (mkF (fs_res a) cur' (fs_it a))) with (full a). rewrite FA.
        apply IH; [exact FA|lia|lia| |lia]. right. split; [lia|]. split; [lia|]. exact K.
    + rewrite <- full_abs, FA. rewrite (HI ltac:(lia)) in *. apply IH; [exact FA|lia|lia| |reflexivity]. right. split; [lia|]. split; [lia|]. discriminate.
Qed.

(** ** Encodings inside a vector *)

(** the bytes [l] and then the end of [d] stand at index [p] of [d] *)
Definition sits (d : list Z) (p : Z) (l : list Z) : Prop := exists pre, d = pre ++ l /\ lenB pre = p.
Lemma sits_nonneg d p l : sits d p l -> 0 <= p. Proof. intros (pre & _ & H). lia. Qed.
Lemma sits_skip d p a b : sits d p (a ++ b) -> sits d (p + lenB a) b.
Proof. intros (pre & -> & H). exists (pre ++ a). rewrite <- app_assoc. split; [reflexivity|]. rewrite app_length. lia. Qed.
Lemma sits_get n d p v r : sits d p (le_enc n v ++ r) -> 0 <= v < pow256 n -> get_n n d p = Some v.
Proof.
  intros (pre & -> & H) Hv. unfold get_n, buf_get. rewrite !app_length, le_enc_length.
  replace (Z.to_nat p) with (length pre) by lia. replace (length pre + n <=? length pre + (n + length r))%nat with true by lia.
  rewrite skipn_app, skipn_all2, Nat.sub_diag by lia. cbn [skipn app]. rewrite firstn_app, le_enc_length, Nat.sub_diag, firstn_O, app_nil_r, firstn_all2 by (rewrite le_enc_length; lia).
  rewrite le_dec_enc, Z.mod_small by lia. reflexivity.
Qed.
Lemma sits_get' n d p v r : sits d p (le_enc n v ++ r) -> get_n n d p = Some (v mod pow256 n).
Proof.
  intros (pre & -> & H). unfold get_n, buf_get. rewrite !app_length, le_enc_length.
  replace (Z.to_nat p) with (length pre) by lia. replace (length pre + n <=? length pre + (n + length r))%nat with true by lia.
  rewrite skipn_app, skipn_all2, Nat.sub_diag by lia. cbn [skipn app]. rewrite firstn_app, le_enc_length, Nat.sub_diag, firstn_O, app_nil_r, firstn_all2 by (rewrite le_enc_length; lia).
  rewrite le_dec_enc. reflexivity.
Qed.

(** ** The records of a cell *)

(** every point named is one of the file, and counts fit a byte *)
Definition run_in (pts : list coords) (r : Z * Z) : Prop := 0 <= fst r /\ 0 <= snd r <= 255 /\ fst r + snd r <= lenB pts.
Definition runs_items pts q x y z test (m : runs) : list item := flat_map (run_items pts q x y z test) m.

Lemma read_runs_walk pts q d x y z ig test m : lenB pts < 2 ^ 31 -> Forall (run_in pts) m -> forall p sc s rest,
  full s = false -> sits d p (run_bytes m ++ rest) ->
  exists v, read_runs pts q d x y z ig test (length m) (mkV p sc s) = Ok (v, true) /\
    (vs_n v, abs (vs_s v)) = walk ig (runs_items pts q x y z test m) sc (abs s) /\
    (full (vs_s v) = false -> vs_pos v = p + lenB (run_bytes m)).
Proof.
  intros HL. induction m as [|(id, cnt) m IH]; intros HM p sc s rest HF HS.
  - cbn [List.length read_runs]. eexists. split; [reflexivity|]. split; [reflexivity|]. cbn. intros _. lia.
  - pose proof (Forall_inv HM) as (R1 & R2 & R3). cbn [fst snd] in *. cbn [List.length read_runs vs_pos vs_n vs_s].
    unfold run_bytes in HS. cbn [flat_map fst snd] in HS. fold (run_bytes m) in HS. rewrite <- !app_assoc in HS.
    rewrite (sits_get 4 d p id _ HS) by (change (pow256 4) with (2 ^ 32); lia).
    apply sits_skip in HS. rewrite le_enc_length in HS. change (p + Z.of_nat 4) with (p + 4) in HS.
    rewrite (sits_get 1 d (p + 4) cnt _ HS) by (change (pow256 1) with 256; lia).
    apply sits_skip in HS. rewrite le_enc_length in HS. change (p + 4 + Z.of_nat 1) with (p + 4 + 1) in HS.
    unfold runs_items. cbn [flat_map]. fold (runs_items pts q x y z test m).
    set (W := run_items pts q x y z test (id, cnt)).
    assert (X : exists s', (if test then series pts q x y z ig (Z.to_nat cnt) id (2 ^ 32 - 1) false sc s else Ok (sc + cnt, with_it s (add_cell cnt))) =
        Ok (fst (walk ig W sc (abs s)), s') /\ abs s' = snd (walk ig W sc (abs s))).
    { destruct test.
      - destruct (series_walk pts q x y z ig (Z.to_nat cnt) HL id (2 ^ 32 - 1) false sc s HF) as (s' & E1 & E2); [lia|lia|left; tauto|reflexivity|].
        rewrite Z2Nat.id in E1, E2 by lia. eauto.
      - assert (LW : lenB W = cnt) by (unfold W, run_items; rewrite map_length, zseq_length; cbn [snd]; lia).
        rewrite walk_bad; [|intros g Hg; apply in_map_iff in Hg; destruct Hg as (i & <- & _); reflexivity|exact HF]. rewrite LW. eexists. split; reflexivity. }
    destruct X as (s' & E1 & E2). rewrite E1. cbn [obind]. rewrite walk_app' by exact HF. destruct (walk ig W sc (abs s)) as (sc1, a1) eqn:EW. cbn [fst snd] in *. rewrite <- E2, <- full_abs.
    destruct (full s') eqn:F'.
    + eexists. split; [reflexivity|]. split; [reflexivity|]. cbn [vs_s]. congruence.
    + replace (p + 4 + 1) with (p + 5) in HS by lia.
      destruct (IH (Forall_inv_tail HM) (p + 5) sc1 s' rest F' HS) as (v & V1 & V2 & V3). exists v. split; [exact V1|]. split; [exact V2|].
      intros FV. rewrite (V3 FV). unfold run_bytes. cbn [flat_map fst snd]. rewrite !app_length, !le_enc_length. lia.
Qed.

(** a map of sub-cells that fits its encoding *)
Definition sub_in (pts : list coords) (s : Z * runs) : Prop :=
  0 <= fst s < 2 ^ 32 /\ lenB (snd s) < 2 ^ 32 /\ Forall (run_in pts) (snd s).
Definition subs_items pts q x y (zof : Z -> Z) (test : Z -> bool) (m : subs) : list item :=
  flat_map (fun s => runs_items pts q x y (zof (fst s)) (test (fst s)) (snd s)) m.

Lemma read_subs_walk pts q d x y zof ig test m : lenB pts < 2 ^ 31 -> Forall (sub_in pts) m -> forall p sc s rest,
  full s = false -> sits d p (sub_bytes m ++ rest) ->
  exists v, read_subs pts q d x y zof ig test (length m) (mkV p sc s) = Ok (v, true) /\
    (vs_n v, abs (vs_s v)) = walk ig (subs_items pts q x y zof test m) sc (abs s) /\
    (full (vs_s v) = false -> vs_pos v = p + lenB (sub_bytes m)).
Proof.
  intros HL. induction m as [|(id, r) m IH]; intros HM p sc s rest HF HS.
  - cbn [List.length read_subs]. eexists. split; [reflexivity|]. split; [reflexivity|]. cbn. intros _. lia.
  - pose proof (Forall_inv HM) as (R1 & R2 & R3). cbn [fst snd] in *. cbn [List.length read_subs vs_pos vs_n vs_s].
    unfold sub_bytes in HS. cbn [flat_map fst snd] in HS. fold (sub_bytes m) in HS. rewrite <- !app_assoc in HS.
    rewrite (sits_get 4 d p id _ HS) by (change (pow256 4) with (2 ^ 32); lia).
    apply sits_skip in HS. rewrite le_enc_length in HS. change (p + Z.of_nat 4) with (p + 4) in HS.
    rewrite (sits_get 4 d (p + 4) (lenB r) _ HS) by (change (pow256 4) with (2 ^ 32); lia).
    apply sits_skip in HS. rewrite le_enc_length in HS. replace (p + 4 + Z.of_nat 4) with (p + 8) in HS by lia.
    unfold subs_items. cbn [flat_map fst snd]. fold (subs_items pts q x y zof test m). rewrite Nat2Z.id.
    destruct (read_runs_walk pts q d x y (zof id) ig (test id) r HL R3 (p + 8) sc s _ HF HS) as (v1 & V1 & V2 & V3).
    rewrite V1. cbn [obind negb]. rewrite walk_app' by exact HF. rewrite <- V2. rewrite <- full_abs. destruct (full (vs_s v1)) eqn:F1.
    + exists v1. split; [reflexivity|]. split; [reflexivity|]. congruence.
    + specialize (V3 eq_refl). apply sits_skip in HS. destruct v1 as [p1 n1 s1]. cbn [vs_pos vs_n vs_s] in *. subst p1.
      destruct (IH (Forall_inv_tail HM) _ n1 s1 rest F1 HS) as (v & W1 & W2 & W3). exists v. split; [exact W1|]. split; [exact W2|].
      intros FV. rewrite (W3 FV). unfold sub_bytes. cbn [flat_map fst snd]. rewrite !app_length, !le_enc_length. lia.
Qed.

(** a cell whose encoding can be read back: its numbers fit their fields, it is
    not divided both ways, it names points of the file *)
Record cell_ok (pts : list coords) (c : cell) : Prop := {
  ok_pts : lenB (k_pts c) < 2 ^ 32 /\ Forall (run_in pts) (k_pts c);
  ok_z : lenB (k_zsub c) < 2 ^ 32 /\ Forall (sub_in pts) (k_zsub c);
  ok_xy : lenB (k_xysub c) < 2 ^ 32 /\ Forall (sub_in pts) (k_xysub c);
  ok_one : k_zsub c = [] \/ k_xysub c = [] }.

(** the points of a cell in the order of its records, with the decision about them *)
Definition cell_items (pts : list coords) (q : query) (x y : Z) (c : cell) : list item :=
  let test := cell_interesting q x y in
  match k_zsub c, k_xysub c with
  | [], [] => runs_items pts q x y 0 test (k_pts c)
  | [], m => subs_items pts q x y (fun _ => 0) (fun sub => test && subcell_interesting q sub x y) m
  | m, _ => subs_items pts q x y (fun z => z) (fun z => test && zcell_interesting q z) m
  end.

Lemma cell_bytes_head x y c : exists r, cell_bytes x y c = le_enc 4 x ++ le_enc 4 y ++ le_enc 4 (k_num c) ++ le_enc 2 (k_minz c) ++ le_enc 2 (k_maxz c) ++
  le_enc 4 (get_num_records c) ++ le_enc 4 (get_num_sub_records c) ++ le_enc 4 (get_num_z_records c) ++ r.
Proof. eexists. reflexivity. Qed.
Lemma cell_bytes_length x y c : 28 <= lenB (cell_bytes x y c).
Proof. destruct (cell_bytes_head x y c) as (r & ->). rewrite !app_length, !le_enc_length. lia. Qed.

Ltac skip_field H k := apply sits_skip in H; rewrite le_enc_length in H; match type of H with sits _ (?a + Z.of_nat k) _ => let b := eval cbv in (Z.of_nat k) in change (Z.of_nat k) with b in H end.

Lemma cell_head_ok d p x y c rest : 0 <= x < 2 ^ 32 -> 0 <= y < 2 ^ 32 -> sits d p (cell_bytes x y c ++ rest) ->
  cell_head true d p = Some (x, y, get_num_records c, get_num_sub_records c, get_num_z_records c, p + 28).
Proof.
  intros Hx Hy HS. destruct (cell_bytes_head x y c) as (r & E). rewrite E in HS. rewrite <- !app_assoc in HS. unfold cell_head.
  rewrite (sits_get 4 d p x _ HS) by (change (pow256 4) with (2 ^ 32); lia). skip_field HS 4%nat.
  rewrite (sits_get 4 d (p + 4) y _ HS) by (change (pow256 4) with (2 ^ 32); lia). skip_field HS 4%nat. replace (p + 4 + 4) with (p + 8) in HS by lia.
  rewrite (sits_get' 4 d (p + 8) _ _ HS). skip_field HS 4%nat. replace (p + 8 + 4) with (p + 12) in HS by lia.
  rewrite (sits_get' 2 d (p + 12) _ _ HS). skip_field HS 2%nat.
  rewrite (sits_get' 2 d (p + 12 + 2) _ _ HS). skip_field HS 2%nat. replace (p + 12 + 2 + 2) with (p + 12 + 4) in HS by lia.
  assert (M : forall n, 0 <= n mod 2 ^ 32 < pow256 4) by (intros n; change (pow256 4) with (2 ^ 32); apply Z.mod_pos_bound; lia).
  rewrite (sits_get 4 d (p + 12 + 4) _ _ HS) by apply M. skip_field HS 4%nat. replace (p + 12 + 4 + 4) with (p + 12 + 8) in HS by lia.
  rewrite (sits_get 4 d (p + 12 + 8) _ _ HS) by apply M. skip_field HS 4%nat. replace (p + 12 + 8 + 4) with (p + 12 + 12) in HS by lia.
  rewrite (sits_get 4 d (p + 12 + 12) _ _ HS) by apply M. do 2 f_equal. lia.
Qed.

(** the state with which the points of a cell at [p] are read *)
Definition at_cell (p : Z) (i : iter) : iter :=
  mkIter (it_chunk i) (it_adv i) (it_vlr i) p (it_total i) 0 (it_vpts i) (it_found i).

Lemma read_subs_nil pts q d x y zof ig test v : read_subs pts q d x y zof ig test (length (@nil (Z * runs))) v = Ok (v, true).
Proof. reflexivity. Qed.
Lemma scan_cell_walk pts q d ig x y c : lenB pts < 2 ^ 31 -> cell_ok pts c -> 0 <= x < 2 ^ 32 -> 0 <= y < 2 ^ 32 -> forall p sc s rest,
  full s = false -> sits d p (cell_bytes x y c ++ rest) ->
  exists v, scan_cell pts q true d ig (mkV p sc s) = Ok (v, true) /\
    (vs_n v, abs (vs_s v)) = walk ig (cell_items pts q x y c) sc (a_it (abs s) (at_cell p)) /\
    (full (vs_s v) = false -> vs_pos v = p + lenB (cell_bytes x y c)).
Proof.
  intros HL [(P1 & P2) (Z1 & Z2) (X1 & X2) HO] Hx Hy p sc s rest HF HS. unfold scan_cell. cbn [vs_pos vs_s vs_n].
  set (s0 := with_it s _). assert (F0 : full s0 = false) by (unfold s0; rewrite full_it; [exact HF|reflexivity]).
  change (a_it (abs s) (at_cell p)) with (abs s0). rewrite (cell_head_ok d p x y c rest Hx Hy HS).
  assert (ES : sits d (p + 28) ((if get_num_z_records c =? 0 then [] else sub_bytes (k_zsub c)) ++ (if get_num_sub_records c =? 0 then [] else sub_bytes (k_xysub c)) ++
      (if (get_num_z_records c =? 0) && (get_num_sub_records c =? 0) then run_bytes (k_pts c) else []) ++ rest)).
  { unfold cell_bytes in HS. rewrite <- !app_assoc in HS. do 3 skip_field HS 4%nat. do 2 skip_field HS 2%nat. do 3 skip_field HS 4%nat.
    replace (p + 28) with (p + 4 + 4 + 4 + 2 + 2 + 4 + 4 + 4) by lia. exact HS. }
  assert (EL : lenB (cell_bytes x y c) = 28 + lenB (if get_num_z_records c =? 0 then [] else sub_bytes (k_zsub c)) + lenB (if get_num_sub_records c =? 0 then [] else sub_bytes (k_xysub c)) +
      lenB (if (get_num_z_records c =? 0) && (get_num_sub_records c =? 0) then run_bytes (k_pts c) else [])).
  { unfold cell_bytes. rewrite !app_length, !le_enc_length. lia. }
  rewrite EL. clear EL HS. unfold cell_items, get_num_records, get_num_sub_records, get_num_z_records in *.
  rewrite !(Z.mod_small (lenB _)) in * by lia. rewrite !Nat2Z.id.
  destruct (k_zsub c) as [|z0 zs] eqn:EZ; [destruct (k_xysub c) as [|w0 ws] eqn:EX|].
  - cbn [List.length Z.of_nat Z.eqb read_subs obind negb andb app] in *.
    destruct (read_runs_walk pts q d x y 0 ig (cell_interesting q x y) (k_pts c) HL P2 (p + 28) sc s0 rest F0 ES) as (v & V1 & V2 & V3).
    exists v. split; [exact V1|]. split; [exact V2|]. intros FV. rewrite (V3 FV). cbn [List.length]. lia.
  - change (lenB (@nil (Z * runs)) =? 0) with true in *. replace (lenB (w0 :: ws) =? 0) with false in * by (cbn [List.length]; lia).
    cbn [andb app] in *. rewrite read_subs_nil. cbn [obind negb].
    destruct (read_subs_walk pts q d x y (fun _ => 0) ig (fun sub => cell_interesting q x y && subcell_interesting q sub x y) (w0 :: ws) HL X2 (p + 28) sc s0 rest F0 ES) as (v & V1 & V2 & V3).
    rewrite V1. cbn [obind negb]. exists v. split; [reflexivity|]. split; [exact V2|]. intros FV. rewrite (V3 FV). cbn [List.length]. lia.
  - destruct HO as [HO|HO]; [discriminate|]. rewrite HO in *.
    change (lenB (@nil (Z * runs)) =? 0) with true in *. replace (lenB (z0 :: zs) =? 0) with false in * by (cbn [List.length]; lia).
    cbn [andb app] in *.
    destruct (read_subs_walk pts q d x y (fun z => z) ig (fun z => cell_interesting q x y && zcell_interesting q z) (z0 :: zs) HL Z2 (p + 28) sc s0 rest F0 ES) as (v & V1 & V2 & V3).
    rewrite V1. cbn [obind negb List.length read_subs]. destruct v as [vp vn vs_]. cbn [vs_pos vs_n vs_s] in *. eexists. split; [reflexivity|]. split; [exact V2|]. intros FV. rewrite (V3 FV). cbn [vs_pos]. lia.
Qed.

(** Proofs about writing through the C API. *)
From Coq Require Import ZArith List Bool String Lia.
Import ListNotations.
From Verif Require Import Outcome Bytes Vlr_Model Schema_Model Header_Model Point_Model Stream_Model Writer_Model Writer_Api Writer_Append Reader_Model CApi_Model CApi_Spec CApi_Proofs CApi_Safe CApi_Store CApiW_Model CApiW_Spec.
Local Open Scope Z_scope.
Local Notation length := List.length (only parsing).

Lemma put_same {A} (l : list (option A)) n (x : A) y : nth_error l n = Some y -> nth_error (put l n x) n = Some (Some x).
Proof. apply set_same. Qed.
Lemma put_other {A} (l : list (option A)) n k (x : A) : n <> k -> nth_error (put l n x) k = nth_error l k.
Proof. apply set_other. Qed.
Lemma object_ok {A} (l : list (option A)) n x : object l n = Ok x -> nth_error l n = Some (Some x).
Proof. unfold object. destruct (nth_error l n) as [[y|]|]; intros E; try discriminate. now apply Ok_inj in E as ->. Qed.
Lemma write_point_hdr w p w' : write_point w p = Ok w' -> w_hdr w' = w_hdr w.
Proof.
  unfold write_point. destruct (p_data p) eqn:D; [discriminate|]. destruct (_ <? _)%nat; [discriminate|]. intros E. apply obind_ok in E as (s & _ & E). apply Ok_inj in E. subst. reflexivity.
Qed.
Lemma write_points_app ps : forall w w1 q w2, write_points w ps = Ok w1 -> write_point w1 q = Ok w2 -> write_points w (ps ++ [q]) = Ok w2.
Proof.
  induction ps as [|p ps IH]; intros w w1 q w2 E1 E2; cbn [write_points app] in *.
  - apply Ok_inj in E1. subst. rewrite E2. reflexivity.
  - apply obind_ok in E1 as (w0 & Ea & Eb). rewrite Ea. cbn [obind]. now apply (IH w0 w1).
Qed.

Section fixed.
Context (sv : schema -> vlr) (dh : header) (xml : vlr -> outcome schema) (doy year : Z).
Let step := wstep sv dh xml doy year.
Let run := wrun sv dh xml doy year.

(** the writer in the table is the C++ writer after the points [ps] *)
Definition follows (w0 : writer) (f n : nat) (ps : list point) (s : wst) : Prop :=
  exists x, nth_error (w_wrs s) n = Some (Some x) /\ cw_file x = f /\ write_points w0 ps = Ok (cw_w x) /\ w_hdr (cw_w x) = w_hdr w0 /\
    (cw_first x = None \/ cw_first x = Some (w_hdr w0)).

Lemma follows_table w0 f n ps s t : follows w0 f n ps s -> nth_error (w_wrs t) n = nth_error (w_wrs s) n -> follows w0 f n ps t.
Proof. intros (x & E & H) K. exists x. now rewrite K. Qed.
Lemma again_table s m k x t r : again sv s m k x = Ok (t, r) -> exists y, w_wrs t = put (w_wrs s) k y.
Proof.
  unfold again, wfail. destruct (writer_write_header sv (cw_w x)); intros E; try discriminate; apply pair_ok in E as (<- & _); eexists; reflexivity.
Qed.
Lemma keep_nth {A} (l : list A) x n y : nth_error l n = Some y -> nth_error (l ++ [x]) n = nth_error l n.
Proof. intros E. rewrite E. now apply app_keep. Qed.

Lemma follows_step w0 f n ps s c t r : follows w0 f n ps s -> only_points n f c -> step s c = Ok (t, r) ->
  follows w0 f n (ps ++ accepted sv dh xml doy year n s [c]) t.
Proof.
  intros H O E. cbn [accepted]. unfold step in E. rewrite E.
  assert (K : (forall w p, c <> WPoint w p) -> nth_error (w_wrs t) n = nth_error (w_wrs s) n -> follows w0 f n (ps ++ match c, r, match c with WPoint _ p => point_at dh (w_c s) p | _ => UB UBNull end with WPoint (At k) _, R (Num 0), Ok (q, _) => if Nat.eqb k n then [q] else [] | _, _, _ => [] end ++ []) t).
  { intros NP T. rewrite app_nil_r. replace (ps ++ _) with ps; [now apply (follows_table w0 f n ps s)|]. destruct c; try (now rewrite app_nil_r). elim (NP w p eq_refl). }
  unfold wstep in E. cbv zeta in E. destruct c as [c|g|g h mode|w|w p|w h|w|w h|w]; cbn [only_points] in O.
  - apply K; [discriminate|]. apply obind_ok in E as ((c', r') & _ & E). apply pair_ok in E as (<- & _). reflexivity.
  - apply K; [discriminate|]. unfold wfail in E. destruct g as [g|]; [|apply pair_ok in E as (<- & _); reflexivity].
    destruct (w_files s g); try (apply pair_ok in E as (<- & _); reflexivity). apply obind_ok in E as ((c', r') & _ & E). apply pair_ok in E as (<- & _). reflexivity.
  - apply K; [discriminate|]. unfold whdr_valid in E. destruct h as [|k]; [discriminate|]. apply obind_ok in E as (o & _ & E). destruct o as [y|]; [|apply pair_ok in E as (<- & _); reflexivity].
    destruct g as [g|]; [|apply pair_ok in E as (<- & _); reflexivity]. destruct (_ || _); [apply pair_ok in E as (<- & _); reflexivity|].
    destruct H as (x & X & _).
    destruct (w_files s g) as [| |d], (mode =? 2); try discriminate; unfold wfail in E; (destruct (writer_new _ _ _) as [w'|e|u]; [|apply pair_ok in E as (<- & _); reflexivity|discriminate]);
      apply pair_ok in E as (<- & _); cbn [set_wrs set_file w_wrs]; now apply (keep_nth _ _ n (Some x)).
  - apply K; [discriminate|]. destruct w as [|k]; [apply pair_ok in E as (<- & _); reflexivity|]. destruct (nth_error (w_wrs s) k) as [[x|]|] eqn:X; try (apply pair_ok in E as (<- & _); reflexivity).
    destruct (writer_close (cw_w x)); try discriminate. apply pair_ok in E as (<- & _). cbn [set_file set_wrs w_wrs]. apply set_other. congruence.
  - clear K. destruct p as [|k|k].
    { apply pair_ok in E as (<- & <-). destruct w; rewrite !app_nil_r; exact H. }
    all: apply obind_ok in E as ((q, hr) & PA & E); rewrite PA; destruct w as [|j]; [discriminate|]; apply obind_ok in E as (x & X & E); apply object_ok in X.
    all: destruct (write_point _ q) as [w'|e|u] eqn:WP; [| |discriminate].
    all: destruct H as (y & Y & HF & HW & HH & H1).
    all: apply pair_ok in E as (<- & <-); destruct (Nat.eqb_spec j n) as [->|J];
      [rewrite X in Y; (assert (x = y) by congruence); subst y | try rewrite app_nil_r; exists y; split; [cbn [put_wr set_wrs set_c w_wrs]; rewrite put_other by exact J; exact Y|rewrite ?app_nil_r; cbn [LE_Failure LE_None]; rewrite ?app_nil_r; auto]].
    all: assert (HX : match cw_first x with Some h => h | None => w_hdr (cw_w x) end = w_hdr w0) by (destruct H1 as [->| ->]; congruence).
    all: rewrite HX in *.
    all: replace (mkWriter (w_os (cw_w x)) (w_hdr w0) (w_count (cw_w x))) with (cw_w x) in WP by (rewrite <- HH; destruct (cw_w x); reflexivity).
    1, 3: exists (mkCW (cw_file x) (mkWriter (w_os w') (w_hdr (cw_w x)) (w_count w')) (Some (w_hdr w0))); split; [cbn [put_wr set_wrs w_wrs]; now apply (put_same _ _ _ (Some x))|];
      pose proof (write_point_hdr _ _ _ WP) as WH; cbn [LE_None app]; (split; [exact HF|]); cbn [cw_w cw_first w_hdr];
      (split; [apply (write_points_app ps w0 (cw_w x)); [exact HW|]; rewrite WP, <- WH; destruct w'; reflexivity|]); split; [exact HH|now right].
    all: exists (mkCW (cw_file x) (cw_w x) (Some (w_hdr w0))); split; [cbn [put_wr set_wrs set_c w_wrs]; now apply (put_same _ _ _ (Some x))|]; cbn [LE_Failure]; rewrite !app_nil_r; cbn [cw_file cw_w cw_first]; auto.
  - apply K; [discriminate|]. unfold whdr_valid in E. destruct h as [|k]; [discriminate|]. apply obind_ok in E as (o & _ & E). destruct o as [y|]; [|apply pair_ok in E as (<- & _); reflexivity].
    destruct w as [|j]; [apply pair_ok in E as (<- & _); reflexivity|]. apply obind_ok in E as (x & _ & E). apply again_table in E as (z & ->). apply put_other. congruence.
  - apply K; [discriminate|]. destruct w as [|j]; [apply pair_ok in E as (<- & _); reflexivity|]. apply obind_ok in E as (x & _ & E). apply again_table in E as (z & ->). apply put_other. congruence.
  - apply K; [discriminate|]. destruct w as [|j]; [apply pair_ok in E as (<- & _); reflexivity|]. destruct h as [|k]; [apply pair_ok in E as (<- & _); reflexivity|].
    apply obind_ok in E as (o & _ & E). destruct o as [y|]; [|apply pair_ok in E as (<- & _); reflexivity]. apply obind_ok in E as (x & _ & E). apply pair_ok in E as (<- & _).
    cbn [put_wr set_wrs w_wrs]. apply put_other. congruence.
  - apply K; [discriminate|]. destruct w as [|j]; [cbn in E; apply pair_ok in E as (<- & _); reflexivity|]. apply obind_ok in E as (x & _ & E). cbn [new_hdr] in E. apply pair_ok in E as (<- & _). reflexivity.
Qed.
Lemma accepted_cons n s c t r l : step s c = Ok (t, r) ->
  accepted sv dh xml doy year n s (c :: l) = accepted sv dh xml doy year n s [c] ++ accepted sv dh xml doy year n t l.
Proof. intros E. cbn [accepted]. unfold step in E. rewrite E. now rewrite app_nil_r. Qed.
Lemma follows_run w0 f n calls : forall ps s t rs, follows w0 f n ps s -> Forall (only_points n f) calls -> run s calls = Ok (t, rs) ->
  follows w0 f n (ps ++ accepted sv dh xml doy year n s calls) t.
Proof.
  induction calls as [|c l IH]; intros ps s t rs H O E; unfold run in *; cbn [wrun] in E.
  - apply pair_ok in E as (<- & _). cbn [accepted]. now rewrite app_nil_r.
  - inversion O as [|? ? O1 O2]; subst. apply obind_ok in E as ((s1, r1) & E1 & E). apply obind_ok in E as ((s2, r2) & E2 & E). apply pair_ok in E as (<- & _).
    rewrite (accepted_cons n s c s1 r1 l E1), app_assoc. apply (IH _ s1 s2 r2); [|exact O2|exact E2]. now apply (follows_step w0 f n ps s c s1 r1).
Qed.

Lemma create_inv s f k mode s1 n : step s (WCreate (Some f) (At k) mode) = Ok (s1, WPtr (At n)) ->
  exists h w, nth_error (c_hdrs (w_c s)) k = Some (Some (Some h)) /\ writer_new sv (os_open (kept_bytes s f mode)) h = Ok w /\
    n = length (w_wrs s) /\ w_c s1 = w_c s /\ w_wrs s1 = w_wrs s ++ [Some (mkCW f w None)] /\ (mode = 1 \/ mode = 2).
Proof.
  unfold step, wstep. cbv zeta. unfold whdr_valid. intros E. apply obind_ok in E as (o & O & E). apply object_ok in O. destruct o as [h|]; [|discriminate].
  destruct (Z.ltb_spec 2 mode) as [A|A]; [discriminate|]. destruct (Z.ltb_spec mode 1) as [B|B]; [discriminate|]. cbn [orb] in E.
  exists h. unfold kept_bytes. destruct (w_files s f) as [| |d], (mode =? 2); try discriminate; unfold wfail in E; (destruct (writer_new _ _ _) as [w'|e|u]; try discriminate);
    exists w'; apply pair_ok in E as (<- & E); injection E as <-; repeat (split; [reflexivity || exact O|]); lia.
Qed.
Lemma c_session s f k mode s1 n calls s2 rs s3 r : step s (WCreate (Some f) (At k) mode) = Ok (s1, WPtr (At n)) ->
  run s1 calls = Ok (s2, rs) -> Forall (only_points n f) calls -> step s2 (WDestroy (At n)) = Ok (s3, r) ->
  exists h F, nth_error (c_hdrs (w_c s)) k = Some (Some (Some h)) /\
    write_session sv (kept_bytes s f mode) h (accepted sv dh xml doy year n s1 calls) = Ok F /\ w_files s3 f = Data F.
Proof.
  intros E1 E2 O E3. apply create_inv in E1 as (h & w & EH & EW & -> & _ & ET & _).
  assert (H0 : follows w f (length (w_wrs s)) [] s1).
  { exists (mkCW f w None). split; [rewrite ET, nth_error_app2 by lia; now rewrite Nat.sub_diag|]. cbn. auto. }
  destruct (follows_run w f _ calls [] s1 s2 rs H0 O E2) as (x & X & XF & XW & _). cbn [app] in XW.
  unfold step, wstep in E3. cbv zeta in E3. rewrite X in E3. destruct (writer_close (cw_w x)) as [F|e|u] eqn:C; try discriminate. apply pair_ok in E3 as (<- & _).
  exists h, F. split; [exact EH|]. split; [unfold write_session; rewrite EW; cbn [obind]; rewrite XW; exact C|]. cbn [set_file w_files]. now rewrite XF, Nat.eqb_refl.
Qed.

Lemma wrun_app l1 : forall l2 s, run s (l1 ++ l2) = let! (t, r1) := run s l1 in let! (u, r2) := run t l2 in Ok (u, r1 ++ r2).
Proof.
  unfold run. induction l1 as [|c l1 IH]; intros l2 s; cbn [wrun app obind].
  - destruct (wrun sv dh xml doy year s l2) as [[u r2]|e|u]; reflexivity.
  - destruct (wstep sv dh xml doy year s c) as [[t r]|e|u]; cbn [obind]; [|reflexivity|reflexivity]. rewrite IH.
    destruct (wrun sv dh xml doy year t l1) as [[v r1]|e|u]; cbn [obind]; [|reflexivity|reflexivity].
    destruct (wrun sv dh xml doy year v l2) as [[w r2]|e|u]; reflexivity.
Qed.
Lemma plain_run l : forall s c rs, crun dh xml doy year (w_c s) l = Ok (c, rs) -> run s (map Plain l) = Ok (set_c s c, map R rs).
Proof.
  unfold run. induction l as [|x l IH]; intros s c rs E; cbn [crun map wrun] in *.
  - apply pair_ok in E as (<- & <-). destruct s; reflexivity.
  - apply obind_ok in E as ((c1, r1) & E1 & E). apply obind_ok in E as ((c2, r2) & E2 & E). apply pair_ok in E as (<- & <-).
    unfold wstep at 1. cbv zeta. rewrite E1. cbn [obind]. rewrite (IH (set_c s c1) c2 r2 E2). reflexivity.
Qed.

(** writing points one after the other *)
Lemma points_run f n hs : forall ps s x w1, nth_error (w_wrs s) n = Some (Some x) -> cw_file x = f -> (cw_first x = None \/ cw_first x = Some (w_hdr (cw_w x))) ->
  Forall2 (fun p q => exists h, point_at dh (w_c s) p = Ok (q, h)) hs ps -> write_points (cw_w x) ps = Ok w1 ->
  exists t y, run s (map (WPoint (At n)) hs) = Ok (t, map (fun _ => R (Num 0)) hs) /\ nth_error (w_wrs t) n = Some (Some y) /\ cw_w y = w1 /\ cw_file y = f /\
    w_c t = w_c s /\ (forall g, w_files t g = w_files s g) /\ (forall k, k <> n -> nth_error (w_wrs t) k = nth_error (w_wrs s) k) /\ length (w_wrs t) = length (w_wrs s).
Proof.
  induction hs as [|p hs IH]; intros ps s x w1 X XF X1 P W; inversion P as [|? q ? ps' P1 P2]; subst; unfold run; cbn [map wrun write_points] in *.
  - apply Ok_inj in W. subst. exists s, x. split; [reflexivity|]. repeat (split; [assumption || reflexivity|]). split; reflexivity.
  - destruct P1 as (h & PA). apply obind_ok in W as (w2 & W1 & W2).
    assert (NP : p <> PNull) by (intros ->; discriminate PA).
    set (y := mkCW (cw_file x) (mkWriter (w_os w2) (w_hdr (cw_w x)) (w_count w2)) (Some (w_hdr (cw_w x)))).
    assert (HX : match cw_first x with Some h => h | None => w_hdr (cw_w x) end = w_hdr (cw_w x)) by (destruct X1 as [->| ->]; reflexivity).
    assert (E : wstep sv dh xml doy year s (WPoint (At n) p) = Ok (put_wr s n y, R (Num LE_None))).
    { unfold wstep. cbv zeta. destruct p as [|k|k]; [congruence| |]; rewrite PA; cbn [obind]; unfold object; rewrite X; cbn [obind]; rewrite HX;
        (replace (mkWriter (w_os (cw_w x)) (w_hdr (cw_w x)) (w_count (cw_w x))) with (cw_w x) by (destruct (cw_w x); reflexivity)); rewrite W1; reflexivity. }
    rewrite E. cbn [obind].
    assert (Y : cw_w y = w2). { unfold y. cbn [cw_w]. rewrite <- (write_point_hdr _ _ _ W1). destruct w2; reflexivity. }
    destruct (IH ps' (put_wr s n y) y w1) as (t & z & R1 & R2 & R3 & R4 & R5 & R6 & R7 & R8).
    { cbn [put_wr set_wrs w_wrs]. now apply (put_same _ _ _ (Some x)). } { reflexivity. } { right. unfold y. reflexivity. }
    { exact P2. } { now rewrite Y. }
    unfold run in R1. rewrite R1. cbn [obind]. exists t, z. split; [reflexivity|]. split; [exact R2|]. split; [exact R3|]. split; [exact R4|]. split; [exact R5|]. split; [exact R6|].
    split; [intros k K; rewrite R7 by exact K; cbn [put_wr set_wrs w_wrs]; apply put_other; congruence|]. rewrite R8. cbn [put_wr set_wrs w_wrs]. unfold put. clear. generalize (Some y). revert n. induction (w_wrs s); intros [|n] z; cbn; auto.
Qed.
(** when the C++ session succeeds so do the calls, one by one, without an error *)
Lemma c_completes s f k h mode hs ps F : nth_error (c_hdrs (w_c s)) k = Some (Some (Some h)) -> mode = 1 \/ mode = 2 ->
  (w_files s f = Denied -> False) -> (mode = 2 -> w_files s f <> Missing) ->
  Forall2 (fun p q => exists h, point_at dh (w_c s) p = Ok (q, h)) hs ps ->
  write_session sv (kept_bytes s f mode) h ps = Ok F ->
  let n := length (w_wrs s) in
  exists t, run s (WCreate (Some f) (At k) mode :: map (WPoint (At n)) hs ++ [WDestroy (At n)]) = Ok (t, WPtr (At n) :: map (fun _ => R (Num 0)) hs ++ [R Nothing]) /\
    w_c t = w_c s /\ w_files t f = Data F /\ (forall g, g <> f -> w_files t g = w_files s g) /\ (forall j, (j < n)%nat -> nth_error (w_wrs t) j = nth_error (w_wrs s) j).
Proof.
  intros EH M D1 D2 P W n. unfold write_session in W. apply obind_ok in W as (w & W1 & W). apply obind_ok in W as (w1 & W2 & W3).
  set (s1 := set_file s f (Data (kept_bytes s f mode))).
  assert (E : wstep sv dh xml doy year s (WCreate (Some f) (At k) mode) = Ok (set_wrs s1 (w_wrs s ++ [Some (mkCW f w None)]), WPtr (At n))).
  { unfold wstep. cbv zeta. unfold whdr_valid, object. rewrite EH. cbn [obind].
    rewrite (proj2 (Z.ltb_ge 2 mode)), (proj2 (Z.ltb_ge mode 1)) by lia. cbn [orb].
    unfold kept_bytes in W1, s1. destruct (w_files s f) as [| |d]; [|now elim D1|]; (destruct M as [-> | ->]; cbn [Z.eqb Pos.eqb] in *);
      try (elim (D2 eq_refl eq_refl)); rewrite W1; reflexivity. }
  unfold run. cbn [wrun]. rewrite E. cbn [obind].
  destruct (points_run f n hs ps (set_wrs s1 (w_wrs s ++ [Some (mkCW f w None)])) (mkCW f w None) w1) as (t & y & R1 & R2 & R3 & R4 & R5 & R6 & R7 & R8).
  { cbn [set_wrs w_wrs]. rewrite nth_error_app2 by (unfold n; lia). unfold n. now rewrite Nat.sub_diag. } { reflexivity. } { now left. } { exact P. } { exact W2. }
  pose proof (wrun_app (map (WPoint (At n)) hs) [WDestroy (At n)] (set_wrs s1 (w_wrs s ++ [Some (mkCW f w None)]))) as RA. unfold run in RA, R1. rewrite RA, R1. cbn [obind wrun].
  unfold wstep at 1. cbv zeta. rewrite R2, R3, W3. cbn [obind]. eexists. split; [reflexivity|]. cbn [set_file set_wrs w_c w_files w_wrs]. rewrite R4, Nat.eqb_refl.
  split; [exact R5|]. split; [reflexivity|]. split.
  - intros g G. destruct (Nat.eqb_spec g f); [congruence|]. rewrite R6. cbn [set_wrs s1 set_file w_files]. destruct (Nat.eqb_spec g f); [congruence|reflexivity].
  - intros j J. unfold drop. rewrite set_other by lia. rewrite R7 by lia. cbn [set_wrs w_wrs]. now rewrite nth_error_app1 by exact J.
Qed.
End fixed.

(** ** reports and frames *)
Section more.
Context (sv : schema -> vlr) (dh : header) (xml : vlr -> outcome schema) (doy year : Z).
Let step := wstep sv dh xml doy year.

Definition wgood (c : wcall) (s : wst) (o : outcome (wst * wres)) : Prop := forall t r, o = Ok (t, r) ->
  (c_errs (w_c t) = c_errs (w_c s) /\ (wstatus c = true -> r = R (Num 0))) \/ (werror_added c s t /\ wfailure c r).
Lemma prefix_refl m : String.prefix m m = true.
Proof. induction m; cbn; [reflexivity|]. destruct (Ascii.ascii_dec a a); congruence. Qed.
Lemma wgood_fail c s s' rc : c_errs (w_c s') = c_errs (w_c s) -> wfailure c rc -> wgood c s (wfail s' (wname c) rc).
Proof.
  intros E F t r H. apply pair_ok in H as (<- & <-). right. split; [|exact F]. exists (mkErr 3 (wname c)). cbn [set_c w_c push set_errs c_errs]. rewrite E. repeat split. apply prefix_refl.
Qed.
Lemma wgood_ok c s t r : c_errs (w_c t) = c_errs (w_c s) -> (wstatus c = true -> r = R (Num 0)) -> wgood c s (Ok (t, r)).
Proof. intros E F t' r' H. apply pair_ok in H as (<- & <-). now left. Qed.
Lemma wgood_bind {A} c s (o : outcome A) k : (forall x, o = Ok x -> wgood c s (k x)) -> wgood c s (let! x := o in k x).
Proof. intros H t r E. apply obind_ok in E as (x & Ex & E). exact (H x Ex t r E). Qed.
Lemma wgood_ub c s u : wgood c s (UB u).
Proof. intros t r E. discriminate. Qed.
Lemma wgood_throw c s e : wgood c s (Throw e).
Proof. intros t r E. discriminate. Qed.
Lemma wreports s c : wabout_errors c = false -> wseek c = false -> wgood c s (step s c).
Proof.
  intros A B. unfold step, wstep. cbv zeta. destruct c as [c|g|g h mode|w|w p|w h|w|w h|w].
  - apply wgood_bind. intros (c', r') E t r X. apply pair_ok in X as (<- & <-). destruct (reports dh xml doy year (w_c s) c A B c' r' E) as [(H1 & H2)|(H1 & H2 & _)].
    + left. split; [exact H1|]. intros S. now rewrite (H2 S).
    + right. split; [exact H1|]. exists r'. split; [reflexivity|exact H2].
  - destruct g as [g|]; [|now apply wgood_fail]. destruct (w_files s g) as [| |d]; try (now apply wgood_fail).
    apply wgood_bind. intros (c', r') E t r X. apply pair_ok in X as (<- & <-). destruct (reports dh xml doy year (w_c s) (RdCreate d) eq_refl eq_refl c' r' E) as [(H1 & H2)|(H1 & H2 & _)].
    + left. split; [exact H1|]. discriminate.
    + right. split; [exact H1|]. cbn [failure_answer] in H2. now rewrite H2.
  - unfold whdr_valid. destruct h as [|k]; [apply wgood_ub|]. apply wgood_bind. intros [y|] _; [|now apply wgood_fail]. destruct g as [g|]; [|now apply wgood_fail]. destruct (_ || _); [now apply wgood_fail|].
    destruct (w_files s g) as [| |d], (mode =? 2); try apply wgood_ub; (destruct (writer_new _ _ _); [now apply wgood_ok|now apply wgood_fail|apply wgood_ub]).
  - destruct w as [|n]; [now apply wgood_fail|]. destruct (nth_error (w_wrs s) n) as [[x|]|]; try (now apply wgood_fail). destruct (writer_close (cw_w x)); [now apply wgood_ok|apply wgood_throw|apply wgood_ub].
  - destruct p as [|k|k]; [now apply wgood_fail| |];
      (apply wgood_bind; intros (q, hr) _; destruct w as [|n]; [apply wgood_ub|]; apply wgood_bind; intros x _; destruct (write_point _ q); [now apply wgood_ok|now apply wgood_fail|apply wgood_ub]).
  - unfold whdr_valid. destruct h as [|k]; [apply wgood_ub|]. apply wgood_bind. intros [y|] _; [|now apply wgood_fail]. destruct w as [|n]; [now apply wgood_fail|]. apply wgood_bind. intros x _.
    unfold again. destruct (writer_write_header sv _); [now apply wgood_ok|now apply wgood_fail|apply wgood_ub].
  - destruct w as [|n]; [now apply wgood_fail|]. apply wgood_bind. intros x _. unfold again. destruct (writer_write_header sv _); [now apply wgood_ok|now apply wgood_fail|apply wgood_ub].
  - destruct w as [|n]; [now apply wgood_fail|]. destruct h as [|k]; [now apply wgood_fail|]. apply wgood_bind. intros [y|] _; [|now apply wgood_ok]. apply wgood_bind. intros x _. now apply wgood_ok.
  - destruct w as [|n]; [cbn [new_hdr]; apply wgood_fail; [reflexivity|]; eexists; reflexivity|]. apply wgood_bind. intros x _. cbn [new_hdr]. now apply wgood_ok.
Qed.

Lemma close_contained w e : writer_close w <> Throw e.
Proof.
  unfold writer_close, update_point_count. destruct (os_fail (w_os w)); [discriminate|].
  destruct (os_write _ _) as [s|x|u] eqn:E; cbn [obind]; try discriminate. unfold os_write in E. destruct (os_fail _); [|discriminate]. injection E as <-. discriminate.
Qed.

(** what a call may change *)
Lemma wframe s c t r : step s c = Ok (t, r) ->
  (forall k x, writer_of c <> At k -> nth_error (w_wrs s) k = Some x -> nth_error (w_wrs t) k = Some x) /\
  (forall g, w_files t g <> w_files s g -> (exists h mode, c = WCreate (Some g) h mode) \/ (exists n x, c = WDestroy (At n) /\ nth_error (w_wrs s) n = Some (Some x) /\ cw_file x = g)).
Proof.
  unfold step, wstep. cbv zeta. intros E.
  assert (SAME : forall c', t = set_c s c' -> (forall k x, writer_of c <> At k -> nth_error (w_wrs s) k = Some x -> nth_error (w_wrs t) k = Some x) /\
    (forall g, w_files t g <> w_files s g -> (exists h mode, c = WCreate (Some g) h mode) \/ (exists n x, c = WDestroy (At n) /\ nth_error (w_wrs s) n = Some (Some x) /\ cw_file x = g))).
  { intros c' ->. split; [now intros|]. intros g G. now elim G. }
  assert (PUT : forall c' n x, writer_of c = At n -> t = set_c (put_wr s n x) c' -> (forall k x, writer_of c <> At k -> nth_error (w_wrs s) k = Some x -> nth_error (w_wrs t) k = Some x) /\
    (forall g, w_files t g <> w_files s g -> (exists h mode, c = WCreate (Some g) h mode) \/ (exists n x, c = WDestroy (At n) /\ nth_error (w_wrs s) n = Some (Some x) /\ cw_file x = g))).
  { intros c' n x W ->. split; [|intros g G; now elim G]. intros k y K Y. cbn [set_c put_wr set_wrs w_wrs]. rewrite put_other by congruence. exact Y. }
  assert (PUT' : forall n x, writer_of c = At n -> t = put_wr s n x -> (forall k x, writer_of c <> At k -> nth_error (w_wrs s) k = Some x -> nth_error (w_wrs t) k = Some x) /\
    (forall g, w_files t g <> w_files s g -> (exists h mode, c = WCreate (Some g) h mode) \/ (exists n x, c = WDestroy (At n) /\ nth_error (w_wrs s) n = Some (Some x) /\ cw_file x = g))).
  { intros n x W ->. apply (PUT (w_c s) n x W). destruct s; reflexivity. }
  destruct c as [c|g|g h mode|w|w p|w h|w|w h|w].
  - apply obind_ok in E as ((c', r') & _ & E). apply pair_ok in E as (<- & _). eapply SAME. reflexivity.
  - unfold wfail in E. destruct g as [g|]; [|apply pair_ok in E as (<- & _); eapply SAME; reflexivity].
    destruct (w_files s g); try (apply pair_ok in E as (<- & _); eapply SAME; reflexivity). apply obind_ok in E as ((c', r') & _ & E). apply pair_ok in E as (<- & _). eapply SAME; reflexivity.
  - unfold whdr_valid in E. destruct h as [|k]; [discriminate|]. apply obind_ok in E as (o & _ & E). destruct o as [y|]; [|apply pair_ok in E as (<- & _); eapply SAME; reflexivity].
    destruct g as [g|]; [|apply pair_ok in E as (<- & _); eapply SAME; reflexivity]. destruct (_ || _); [apply pair_ok in E as (<- & _); eapply SAME; reflexivity|].
    clear SAME PUT PUT'. destruct (w_files s g) as [| |d], (mode =? 2); try discriminate; unfold wfail in E; (destruct (writer_new _ _ _) as [w'|e|u]; [| |discriminate]); apply pair_ok in E as (<- & _);
      (split; [intros j x _ X; cbn [set_c set_wrs set_file w_wrs]; (apply app_keep || idtac); exact X|]); intros q Q; left; cbn [set_c set_wrs set_file w_files] in Q;
      (destruct (Nat.eqb_spec q g) as [EQ|NQ]; [rewrite EQ; eauto|now elim Q]).
  - destruct w as [|k]; [apply pair_ok in E as (<- & _); eapply SAME; reflexivity|]. destruct (nth_error (w_wrs s) k) as [[x|]|] eqn:X; try (apply pair_ok in E as (<- & _); eapply SAME; reflexivity).
    destruct (writer_close (cw_w x)); try discriminate. apply pair_ok in E as (<- & _). cbn [set_file set_wrs w_wrs w_files writer_of]. split.
    + intros j y J Y. unfold drop. rewrite set_other by congruence. exact Y.
    + intros g G. destruct (Nat.eqb_spec g (cw_file x)) as [EQ|NQ]; [|now elim G]. right. exists k, x. auto.
  - destruct p as [|k|k]; [apply pair_ok in E as (<- & _); eapply SAME; reflexivity| |];
    (apply obind_ok in E as ((q, hr) & PA & E); destruct w as [|j]; [discriminate|]; apply obind_ok in E as (x & X & E); destruct (write_point _ q) as [w'|e|u]; [| |discriminate];
     apply pair_ok in E as (<- & _); [eapply PUT'; reflexivity|eapply PUT; reflexivity]).
  - unfold whdr_valid in E. destruct h as [|k]; [discriminate|]. apply obind_ok in E as (o & _ & E). destruct o as [y|]; [|apply pair_ok in E as (<- & _); eapply SAME; reflexivity].
    destruct w as [|j]; [apply pair_ok in E as (<- & _); eapply SAME; reflexivity|]. apply obind_ok in E as (x & _ & E). unfold again, wfail in E.
    destruct (writer_write_header sv _); [| |discriminate]; apply pair_ok in E as (<- & _); [eapply PUT'; reflexivity|eapply PUT; reflexivity].
  - destruct w as [|j]; [apply pair_ok in E as (<- & _); eapply SAME; reflexivity|]. apply obind_ok in E as (x & _ & E). unfold again, wfail in E.
    destruct (writer_write_header sv _); [| |discriminate]; apply pair_ok in E as (<- & _); [eapply PUT'; reflexivity|eapply PUT; reflexivity].
  - destruct w as [|j]; [apply pair_ok in E as (<- & _); eapply SAME; reflexivity|]. destruct h as [|k]; [apply pair_ok in E as (<- & _); eapply SAME; reflexivity|].
    apply obind_ok in E as (o & _ & E). destruct o as [y|]; [|apply pair_ok in E as (<- & _); apply (SAME (w_c s)); destruct s; reflexivity]. apply obind_ok in E as (x & _ & E). apply pair_ok in E as (<- & _).
    eapply PUT'; reflexivity.
  - destruct w as [|j]; [cbn in E; apply pair_ok in E as (<- & _); eapply SAME; reflexivity|]. apply obind_ok in E as (x & _ & E). cbn [new_hdr] in E. apply pair_ok in E as (<- & _). eapply SAME; reflexivity.
Qed.
End more.

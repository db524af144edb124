(** Proofs about the C API model: exceptions, refusals, the frame, the error stack. *)
From Coq Require Import ZArith List Bool String Lia.
Import ListNotations.
From Verif Require Import Outcome Bytes CStr Float64 Float64_Proofs Endian_Model Classif_Model Vlr_Model Schema_Model Header_Model Point_Model Point_Spec Point_Api Point_Proofs Point_Hist Coord_Api Stream_Model Reader_Model Reader_Api IO_Spec Reader_Spec Reader_Proofs Reader_Open Reader_Hist Hdr_Proofs Writer_Append Prop_Coord CApi_Model CApi_Spec CApi_Proofs CApi_Safe.
Local Open Scope Z_scope.
Local Notation length := List.length (only parsing).

(** ** the frame *)
Lemma sb_refl o s : same_but o s s.
Proof. repeat split; auto. Qed.
Lemma sb_errs o s t l : same_but o s t -> same_but o s (set_errs t l).
Proof. exact id. Qed.
Definition fr (o : obj) (s : cst) (r : outcome (cst * res)) : Prop := forall t a, r = Ok (t, a) -> same_but o s t.
Lemma fr_ok o s t a : same_but o s t -> fr o s (Ok (t, a)).
Proof. intros H t' a' E. apply Ok_inj in E. apply (f_equal fst) in E. cbn in E. now subst. Qed.
Lemma fr_fail o s t m a : same_but o s t -> fr o s (fail t m a).
Proof. intros H. now apply fr_ok. Qed.
Lemma fr_ub o s u : fr o s (UB u). Proof. intros ? ? E. discriminate. Qed.
Lemma fr_throw o s u : fr o s (Throw u). Proof. intros ? ? E. discriminate. Qed.
Lemma fr_bind {A} o s (x : outcome A) k : (forall y, x = Ok y -> fr o s (k y)) -> fr o s (obind x k).
Proof. intros H. destruct x; cbn [obind]; [now apply H|apply fr_throw|apply fr_ub]. Qed.
Lemma fr_valid {A} o s m rc (l : list (option A)) p k : (forall n x, p = At n -> fr o s (k n x)) -> fr o s (valid s m rc l p k).
Proof. intros H. destruct p; cbn [valid]; [apply fr_fail, sb_refl|]. apply fr_bind. auto. Qed.
Lemma fr_hdr_valid o s m rc p k : (forall n x, p = At n -> fr o s (k n x)) -> fr o s (hdr_valid s m rc p k).
Proof. intros H. destruct p; cbn [hdr_valid]; [apply fr_ub|]. apply fr_bind. intros [x|] _; [auto|apply fr_fail, sb_refl]. Qed.
Lemma fr_pt_valid dh o s m rc p k : (forall x, fr o s (k x)) -> fr o s (pt_valid dh s m rc p k).
Proof. intros H. destruct p; cbn [pt_valid]; [apply fr_fail, sb_refl| |]; apply fr_bind; intros [x y] _; apply H. Qed.
Lemma fr_tried o s m x : (forall t, x = Ok t -> same_but o s t) -> fr o s (tried s m x).
Proof. intros H. destruct x; cbn [tried]; [apply fr_ok; auto|apply fr_fail, sb_refl|apply fr_ub]. Qed.
Lemma sb_hdr s n x : same_but (OHdr n) s (set_hdrs s (list_set (c_hdrs s) n x)).
Proof. split; [|split; [|split]]; intros k y N E; cbn [c_hdrs c_pts c_vlrs c_rdrs set_hdrs]; auto. rewrite set_other; [exact E|]. intros ->. now apply N. Qed.
Lemma sb_pt s n x : same_but (OPt n) s (set_pts s (list_set (c_pts s) n x)).
Proof. split; [|split; [|split]]; intros k y N E; cbn [c_hdrs c_pts c_vlrs c_rdrs set_pts]; auto. rewrite set_other; [exact E|]. intros ->. now apply N. Qed.
Lemma sb_vlr s n x : same_but (OVlr n) s (set_vlrs s (list_set (c_vlrs s) n x)).
Proof. split; [|split; [|split]]; intros k y N E; cbn [c_hdrs c_pts c_vlrs c_rdrs set_vlrs]; auto. rewrite set_other; [exact E|]. intros ->. now apply N. Qed.
Lemma sb_rdr s n x : same_but (ORdr n) s (set_rdrs s (list_set (c_rdrs s) n x)).
Proof. split; [|split; [|split]]; intros k y N E; cbn [c_hdrs c_pts c_vlrs c_rdrs set_rdrs]; auto. rewrite set_other; [exact E|]. intros ->. now apply N. Qed.
Lemma sb_new_hdr o s x : same_but o s (set_hdrs s (c_hdrs s ++ [x])).
Proof. split; [|split; [|split]]; intros k y N E; cbn [c_hdrs c_pts c_vlrs c_rdrs set_hdrs]; auto. now apply app_keep. Qed.
Lemma sb_new_pt o s x : same_but o s (set_pts s (c_pts s ++ [x])).
Proof. split; [|split; [|split]]; intros k y N E; cbn [c_hdrs c_pts c_vlrs c_rdrs set_pts]; auto. now apply app_keep. Qed.
Lemma sb_new_vlr o s x : same_but o s (set_vlrs s (c_vlrs s ++ [x])).
Proof. split; [|split; [|split]]; intros k y N E; cbn [c_hdrs c_pts c_vlrs c_rdrs set_vlrs]; auto. now apply app_keep. Qed.
Lemma sb_new_rdr o s x : same_but o s (set_rdrs s (c_rdrs s ++ [x])).
Proof. split; [|split; [|split]]; intros k y N E; cbn [c_hdrs c_pts c_vlrs c_rdrs set_rdrs]; auto. now apply app_keep. Qed.
Lemma sb_put_data s p d : same_but (of_p p) s (put_data s p d).
Proof.
  destruct p as [|n|n]; cbn [put_data of_p]; [apply sb_refl| |].
  - destruct (nth_error (c_pts s) n) as [[q|]|]; [apply sb_pt|apply sb_refl|apply sb_refl].
  - destruct (nth_error (c_rdrs s) n) as [[q|]|]; [apply sb_rdr|apply sb_refl|apply sb_refl].
Qed.
Ltac sb := first [apply sb_refl | apply sb_hdr | apply sb_pt | apply sb_vlr | apply sb_rdr | apply sb_new_hdr | apply sb_new_pt | apply sb_new_vlr | apply sb_new_rdr | apply sb_put_data].
Ltac peel2 := let X := fresh in intros ? X; repeat (apply bind_ok in X; destruct X as (? & _ & X)); apply Ok_inj in X; subst; cbn [of_v of_h of_p of_r]; sb.
Ltac frame :=
  repeat first
   [ apply fr_ok; cbn [of_v of_h of_p of_r]; sb
   | apply fr_fail; cbn [of_v of_h of_p of_r]; sb
   | apply fr_ub | apply fr_throw
   | apply fr_valid; intros ? ? ?; subst; cbn [of_v of_h of_p of_r]
   | apply fr_hdr_valid; intros ? ? ?; subst; cbn [of_v of_h of_p of_r]
   | apply fr_pt_valid; intros ?
   | apply fr_tried; peel2
   | match goal with |- fr _ _ (obind _ (fun '(_, _) => _)) => apply fr_bind; intros [? ?] _ end
   | apply fr_bind; intros ? _ ].
Lemma frame dh xml doy year s c : fr (may_change c) s (cstep dh xml doy year s c).
Proof.
  destruct c; unfold cstep; cbv zeta; cbn [may_change]; try solve [frame]; try solve [apply fr_ok; apply sb_errs, sb_refl].
  - frame. destruct (_ || _); frame.
  - frame. destruct (_ <? _)%nat; frame.
  - destruct h; frame.
  - assert (G : forall n y, h = At n -> fr (OHdr n) s
      match hnum_set a y x with (x', Ok _) => Ok (put_hdr s n x', Num LE_None) | (x', Throw _) => fail (put_hdr s n x') (name_of (HdrSetN a h x)) (Num LE_Failure) | (_, UB u) => UB u end).
    { intros n y _. destruct (hnum_set a y x) as (y', [u|e|u]); frame. }
    destruct a; try (apply fr_hdr_valid; intros n y E; subst h; now apply G).
    apply fr_valid. intros n [y|] E; subst h; [now apply G|frame].
  - frame. destruct (_ && _); frame.
  - destruct p; frame.
  - destruct p, q; frame.
  - destruct p; frame.
  - apply fr_valid. intros n [y|] _; frame.
  - apply fr_pt_valid. intros q. destruct (get_time q); frame. destruct (is_runtime e); frame.
  - apply fr_pt_valid. intros q. destruct (set_time q t); [apply fr_ok; apply sb_put_data| |frame]. destruct (is_runtime e); frame.
  - apply fr_pt_valid. intros q. destruct (get_color q); frame. destruct (is_runtime e); frame.
  - apply fr_pt_valid. intros q. destruct (set_color q c); [apply fr_ok; apply sb_put_data| |frame]. destruct (is_runtime e); frame.
  - apply fr_pt_valid. intros q. destruct (_ || _); frame.
  - apply fr_pt_valid. intros q. destruct (_ || _); [frame|]. apply fr_ok. apply sb_put_data.
  - destruct (reader_open xml doy year file); frame.
  - destruct r; frame.
  - apply fr_valid. intros n x ->. destruct (reader_next no_filter no_transform x tt) as (rf, [[]|e|u]); cbn [of_r]; frame.
  - apply fr_valid. intros n x ->. destruct (reader_at no_transform x i) as (rf, [[]|e|u]); cbn [of_r]; frame.
  - apply fr_valid. intros n x ->. destruct (reader_seek x i) as (rf, [[]|e|u]); cbn [of_r]; frame.
Qed.

(** ** no exception leaves a call *)
Definition nt {A} (o : outcome A) : Prop := forall e, o <> Throw e.
Lemma nt_ok {A} (x : A) : nt (Ok x). Proof. intros e E. discriminate. Qed.
Lemma nt_ub {A} u : nt (UB u : outcome A). Proof. intros e E. discriminate. Qed.
Lemma nt_bind {A B} (o : outcome A) (k : A -> outcome B) : nt o -> (forall x, nt (k x)) -> nt (obind o k).
Proof. intros H K. destruct o; cbn [obind]; [apply K|now elim (H e)|apply nt_ub]. Qed.
Lemma nt_deref l i : nt (deref l i).
Proof. unfold deref. destruct (_ && _); [|apply nt_ub]. destruct (nth_error l (Z.to_nat i)); [apply nt_ok|apply nt_ub]. Qed.
Lemma nt_forward sg w n : forall l i, nt (load_forward sg w n l i).
Proof. induction n; intros l i; cbn [load_forward]; (apply nt_bind; [apply nt_deref|intros v]); [apply nt_ok|]. apply nt_bind; [apply IHn|intros; apply nt_ok]. Qed.
Lemma nt_backward sg w n : forall l i, nt (load_backward sg w n l i).
Proof. induction n; intros l i; cbn [load_backward]; (apply nt_bind; [apply nt_deref|intros v]); [apply nt_ok|]. apply nt_bind; [apply IHn|intros; apply nt_ok]. Qed.
Lemma nt_load n t sg k l i : nt (load_dispatch n t sg k l i).
Proof. unfold load_dispatch. destruct n, t; first [apply nt_forward|apply nt_backward]. Qed.
Lemma nt_object {A} (l : list (option A)) n : nt (object l n).
Proof. unfold object. destruct (nth_error l n) as [[x|]|]; [apply nt_ok|apply nt_ub|apply nt_ub]. Qed.
Lemma nt_pnum a q : nt (pnum_get a q).
Proof.
  assert (L : forall sg n d pos, nt (bits_to_int sg n d pos)) by (intros; apply nt_load). assert (B : forall p pos, nt (get_byte p pos)) by (intros; apply nt_deref).
  destruct a as [[]| | | | | | | | | |]; cbn [pnum_get]; unfold get_raw_x, get_raw_y, get_raw_z, get_intensity, get_return_number, get_number_of_returns, get_scan_direction, get_flight_line_edge, get_flags, get_classification, get_scan_angle, get_point_source_id, get_user_data; 
    repeat first [apply L | apply B | apply nt_ok | apply nt_bind; [|intros ?]].
Qed.
Lemma nt_fail s m rc : nt (fail s m rc). Proof. apply nt_ok. Qed.
Lemma nt_valid {A} s m rc (l : list (option A)) p k : (forall n x, nt (k n x)) -> nt (valid s m rc l p k).
Proof. intros H. destruct p; cbn [valid]; [apply nt_ok|]. apply nt_bind; [apply nt_object|apply H]. Qed.
Lemma nt_hdr_valid s m rc p k : (forall n x, nt (k n x)) -> nt (hdr_valid s m rc p k).
Proof. intros H. destruct p; cbn [hdr_valid]; [apply nt_ub|]. apply nt_bind; [apply nt_object|]. intros [x|]; [apply H|apply nt_ok]. Qed.
Lemma nt_header_of dh s r : nt (header_of dh s r).
Proof. destruct r; cbn [header_of]; [apply nt_ok| |]; (apply nt_bind; [apply nt_object|]); [intros [x|]; [apply nt_ok|apply nt_ub]|intros; apply nt_ok]. Qed.
Lemma nt_point_at dh s p : nt (point_at dh s p).
Proof. destruct p; cbn [point_at]; [apply nt_ub| |]; (apply nt_bind; [apply nt_object|intros x]); [apply nt_bind; [apply nt_header_of|]|]; intros; apply nt_ok. Qed.
Lemma nt_pt_valid dh s m rc p k : (forall x, nt (k x)) -> nt (pt_valid dh s m rc p k).
Proof. intros H. destruct p; cbn [pt_valid]; [apply nt_ok| |]; (apply nt_bind; [apply nt_point_at|intros [x y]; apply H]). Qed.
Lemma nt_tried s m o : nt (tried s m o).
Proof. destruct o; cbn [tried]; [apply nt_ok|apply nt_ok|apply nt_ub]. Qed.
Lemma nt_time q : nt (get_time q).
Proof. unfold get_time. destruct (_ || _); [apply nt_ok|]. apply nt_bind; [apply nt_load|intros; apply nt_ok]. Qed.
Lemma nt_color q : nt (get_color q).
Proof. unfold get_color. destruct (_ || _); [apply nt_ok|]. do 3 (apply nt_bind; [apply nt_load|intros ?]). apply nt_ok. Qed.
Lemma nt_real a q : nt (preal_get a q).
Proof. destruct a; cbn [preal_get]; unfold get_x, get_y, get_z; (apply nt_bind; [|intros; apply nt_ok]); [apply (nt_pnum (PRaw AX))|apply (nt_pnum (PRaw AY))|apply (nt_pnum (PRaw AZ))]. Qed.
Ltac nt1 :=
  repeat first
   [ apply nt_ok | apply nt_fail | apply nt_ub | apply nt_tried | apply nt_object | apply nt_deref | apply nt_point_at | apply nt_pnum | apply nt_real
   | apply nt_valid; intros ? ? | apply nt_hdr_valid; intros ? ? | apply nt_pt_valid; intros ?
   | match goal with |- nt (obind _ (fun '(_, _) => _)) => apply nt_bind; [|intros [? ?]] end
   | apply nt_bind; [|intros ?] ].
Lemma contained dh xml doy year s c : (forall n h, c <> PtSetHeader n h) -> nt (cstep dh xml doy year s c).
Proof.
  intros NS. destruct c; unfold cstep; cbv zeta; try solve [nt1].
  - nt1. destruct (_ || _); nt1.
  - nt1. destruct (_ <? _)%nat; nt1.
  - destruct h; nt1. unfold header_at. nt1. destruct x; nt1.
  - apply nt_hdr_valid. intros n x. apply nt_hdr_valid. intros m y. apply nt_bind; [|intros; apply nt_ok]. unfold header_eq. destruct (ptr_eqb h k); [apply nt_ok|]. destruct (negb _); [apply nt_ok|]. destruct (negb _); apply nt_ok.
  - assert (G : forall n y, nt
      match hnum_set a y x with (x', Ok _) => Ok (put_hdr s n x', Num LE_None) | (x', Throw _) => fail (put_hdr s n x') (name_of (HdrSetN a h x)) (Num LE_Failure) | (_, UB u) => UB u end).
    { intros n y. destruct (hnum_set a y x) as (y', [u|e|u]); nt1. }
    destruct a; try (apply nt_hdr_valid; intros n y; now apply G). apply nt_valid. intros n [y|]; [now apply G|nt1].
  - nt1. destruct (_ && _); nt1.
  - nt1. unfold get_vlr. destruct (nth_error _ _); nt1.
  - destruct p; nt1.
  - destruct p, q; nt1.
  - destruct p; nt1.
  - now elim (NS p h).
  - apply nt_pt_valid. intros q. pose proof (nt_time q) as T. destruct (get_time q); nt1. now elim (T e).
  - apply nt_pt_valid. intros q. destruct (set_time q t); nt1. destruct (is_runtime e); nt1.
  - apply nt_pt_valid. intros q. pose proof (nt_color q) as T. destruct (get_color q); nt1. now elim (T e).
  - apply nt_pt_valid. intros q. destruct (set_color q c); nt1. destruct (is_runtime e); nt1.
  - apply nt_pt_valid. intros q. destruct (_ || _); nt1.
  - apply nt_pt_valid. intros q. destruct (_ || _); nt1.
  - apply nt_pt_valid. intros q. unfold is_valid. apply nt_bind; [|intros; apply nt_ok].
    repeat (apply nt_bind; [first [exact (nt_pnum PReturnNumber q)|exact (nt_pnum PNumberOfReturns q)|exact (nt_pnum PScanDirection q)|exact (nt_pnum PFlightLineEdge q)|exact (nt_pnum PScanAngleRank q)]|intros ?];
      match goal with |- nt (if ?b then _ else _) => destruct b; [apply nt_ok|] end). apply nt_ok.
  - destruct (reader_open xml doy year file); nt1.
  - apply nt_valid. intros n x. destruct (reader_next no_filter no_transform x tt) as (rf, [[]|e|u]); nt1.
  - apply nt_valid. intros n x. destruct (reader_at no_transform x i) as (rf, [[]|e|u]); nt1.
  - apply nt_valid. intros n x. destruct (reader_seek x i) as (rf, [[]|e|u]); nt1.
Qed.

(** ** the error stack *)
Lemma reset_loop_spec f : forall i l, (length l <= f)%nat -> reset_loop f i l = skipn ((length l - i + 1) / 2) l.
Proof.
  induction f; intros i l L; cbn [reset_loop]; [destruct l; [now rewrite skipn_nil|cbn in L; lia]|].
  destruct (Nat.ltb_spec i (length l)) as [K|K].
  - destruct l as [|x l]; [cbn in K; lia|]. cbn [tl]. cbn [List.length] in *. rewrite IHf by lia.
    destruct (Nat.le_gt_cases (length l) i).
    + replace (length l - Datatypes.S i + 1)%nat with 1%nat by lia. replace (Datatypes.S (length l) - i + 1)%nat with 2%nat by lia. reflexivity.
    + replace (Datatypes.S (length l) - i + 1)%nat with ((length l - i) + 1 * 2)%nat by lia. rewrite Nat.div_add by lia.
      replace (length l - Datatypes.S i + 1)%nat with (length l - i)%nat by lia. rewrite Nat.add_1_r. reflexivity.
  - replace (length l - i + 1)%nat with 1%nat by lia. reflexivity.
Qed.
Lemma reset_spec l : error_reset l = skipn ((length l + 1) / 2) l.
Proof. unfold error_reset. rewrite reset_loop_spec by lia. now rewrite Nat.sub_0_r. Qed.
Lemma seek_errs dh xml doy year s r i t a : cstep dh xml doy year s (RdSeek r i) = Ok (t, a) -> exists new, c_errs t = new ++ c_errs s.
Proof.
  unfold cstep. cbv zeta. destruct r; cbn [valid]; [intros E; apply Ok_inj in E; apply (f_equal fst) in E; cbn [fst] in E; subst; now exists [mkErr LE_Failure (name_of (RdSeek Null i))]|].
  intros E. apply bind_ok in E as (x & _ & E). destruct (reader_seek x i) as (r1, [[]|e|u]); try discriminate; apply Ok_inj in E; apply (f_equal fst) in E; cbn [fst] in E; subst; [now exists []|now exists []|].
  cbn [push c_errs set_errs set_rdrs]. eexists [_]. reflexivity.
Qed.
Lemma step_errs dh xml doy year s c t r : removes_errors c = false -> cstep dh xml doy year s c = Ok (t, r) -> exists new, c_errs t = new ++ c_errs s.
Proof.
  intros N E. destruct (about_errors c) eqn:A.
  - destruct c; try discriminate; cbn [cstep] in E; apply Ok_inj in E; apply (f_equal fst) in E; cbn [fst] in E; subst; [now exists [mkErr code m]|now exists []|now exists []|now exists []].
  - destruct (is_seek_call c) eqn:S; [destruct c; try discriminate; now apply seek_errs in E|].
    destruct (reports dh xml doy year s c A S t r E) as [(X & _)|((e & X & _) & _)]; [exists []|exists [e]]; exact X.
Qed.
Lemma run_errs dh xml doy year l : forall s t rs, forallb (fun c => negb (removes_errors c)) l = true -> crun dh xml doy year s l = Ok (t, rs) -> exists new, c_errs t = new ++ c_errs s.
Proof.
  induction l as [|c l IH]; intros s t rs N E; cbn [crun forallb] in *.
  - apply Ok_inj in E. apply (f_equal fst) in E. cbn [fst] in E. subst. now exists [].
  - apply andb_true_iff in N as (N1 & N2). apply negb_true_iff in N1. apply bind_ok in E as ((u & r) & E1 & E). apply bind_ok in E as ((v & rs') & E2 & E).
    apply Ok_inj in E. apply (f_equal fst) in E. cbn [fst] in E. subst v. destruct (step_errs _ _ _ _ _ _ _ _ N1 E1) as (n1 & X1). destruct (IH _ _ _ N2 E2) as (n2 & X2).
    exists (n2 ++ n1). rewrite X2, X1. now rewrite app_assoc.
Qed.

(** ** refusals *)
Section refusals.
Context (dh : header) (xml : vlr -> outcome schema) (doy year : Z) (Hdh : header_wf dh) (Ldh : layout_ok dh).
Definition says (s : cst) (c : call) (o : outcome (cst * res)) : Prop :=
  forall t r, o = Ok (t, r) -> (r = Num 3 <-> refused s c \/ null_handle c).
Lemma says_fail s c t m : refused s c \/ null_handle c -> says s c (fail t m (Num LE_Failure)).
Proof. intros H t' r E. apply Ok_inj in E. apply (f_equal snd) in E. cbn [snd] in E. subst r. unfold LE_Failure. tauto. Qed.
Lemma says_ok s c t : ~ refused s c -> ~ null_handle c -> says s c (Ok (t, Num LE_None)).
Proof. intros H N t' r E. apply Ok_inj in E. apply (f_equal snd) in E. cbn [snd] in E. subst r. unfold LE_None. split; [discriminate|tauto]. Qed.
Lemma says_vlr s c m v k : careful dh xml s c -> sound dh xml s -> null_handle c <-> v = Null -> (v = Null \/ exists x, live_vlr s v x) ->
  (forall n x, v = At n -> vlr_wf x -> nth_error (c_vlrs s) n = Some (Some x) -> says s c (k n x)) -> says s c (valid s m (Num LE_Failure) (c_vlrs s) v k).
Proof.
  intros _ H N [->|(x & n & -> & E)] K; [apply says_fail; right; now apply N|]. cbn [valid]. unfold object. rewrite E. cbn [obind]. apply K; auto. destruct H as (_ & B & _). eauto.
Qed.
Lemma says_hdr s c m h x k : sound dh xml s -> live_hdr s h x ->
  (forall n, nth_error (c_hdrs s) n = Some (Some (Some x)) -> header_wf x -> h = At n -> says s c (k n x)) -> says s c (hdr_valid s m (Num LE_Failure) h k).
Proof. intros H (n & -> & E) K. cbn [hdr_valid]. unfold object. rewrite E. cbn [obind]. apply K; auto. destruct H as (A & _). eauto. Qed.
Lemma says_pt s c m p k : sound dh xml s -> null_handle c <-> p = PNull -> (p = PNull \/ exists q, live_pt dh s p q) ->
  (forall q, live_pt dh s p q -> point_wf q -> says s c (k q)) -> says s c (pt_valid dh s m (Num LE_Failure) p k).
Proof.
  intros H N [->|(q & L)] K; [apply says_fail; right; now apply N|]. destruct (live_at dh xml Hdh s p q H L) as ((r & E & _) & P & _).
  assert (says s c (let! (q, _) := point_at dh s p in k q)). { rewrite E. cbn [obind]. apply K; auto. destruct P as (P & _). now destruct q. }
  destruct p; [apply says_fail; right; now apply N| |]; exact H0.
Qed.
Lemma refusals s c : sound dh xml s -> careful dh xml s c -> returns_status c = true -> says s c (cstep dh xml doy year s c).
Proof.
  intros H K R. pose proof K as CK. destruct c; try discriminate R; clear R; cbn [careful] in K; unfold cstep; cbv zeta.
  - apply (says_vlr s _ _ v _ CK H); [reflexivity|exact K|]. intros n y -> W E. apply says_ok; cbn; [tauto|discriminate].
  - destruct K as [->|(L & l & -> & B)]; [apply says_fail; now right|]. apply (says_vlr s _ _ v _ CK H); [reflexivity|auto|]. intros n y -> W E. cbn [c_string obind].
    destruct a; cbn [vtext_set].
    + pose proof (vlr_set_user_spec y _ W (bytes_until_nul l B)) as S. destruct (Nat.leb_spec (length (until_nul l)) 16) as [Z|Z].
      * destruct S as (v' & -> & _). cbn [obind tried]. apply says_ok; cbn; [lia|discriminate].
      * rewrite S. cbn [obind tried]. apply says_fail. left. exact Z.
    + pose proof (vlr_set_desc_spec y _ W (bytes_until_nul l B)) as S. destruct (Nat.leb_spec (length (until_nul l)) 32) as [Z|Z].
      * destruct S as (v' & -> & _). cbn [obind tried]. apply says_ok; cbn; [lia|discriminate].
      * rewrite S. cbn [obind tried]. apply says_fail. left. exact Z.
  - destruct K as [->|(L & B & S1)]; [apply says_fail; now right|]. apply (says_vlr s _ _ v _ CK H); [reflexivity|auto|]. intros n y -> W E.
    replace (length d <? Z.to_nat len)%nat with false by (symmetry; apply Nat.ltb_ge; lia). apply says_ok; cbn; [tauto|discriminate].
  - destruct K as (FT & n & y & -> & L & U).
    assert (G : forall m, nth_error (c_hdrs s) m = Some (Some (Some y)) -> header_wf y -> n = m -> says s (HdrSetN a (At n) x)
      match hnum_set a y x with (x', Ok _) => Ok (put_hdr s m x', Num LE_None) | (x', Throw _) => fail (put_hdr s m x') (name_of (HdrSetN a (At n) x)) (Num LE_Failure) | (_, UB u) => UB u end).
    { intros m E W <-. destruct (hnum_set a y x) as (y', o) eqn:X. destruct (hnum_set_keeps a y x y' o W FT X) as (W' & _ & K2 & K3).
      assert (RR : refused c_start (HdrSetN a Null x) <-> refused s (HdrSetN a (At n) x)) by (destruct a; reflexivity).
      destruct K2 as [(e & ->)| ->]; [apply says_fail; left; apply RR, K3; eauto|apply says_ok; [|cbn; auto]]. intros RF. apply RR, K3 in RF as (e & X'). discriminate. }
    destruct a; try (apply (says_hdr s _ _ _ y); [exact H|exact L|]; intros m E W M; injection M as <-; now apply G).
    destruct L as (m & M & E). injection M as <-. cbn [valid]. unfold object. rewrite E. cbn [obind]. apply G; [exact E| |reflexivity]. destruct H as (A & _). eauto.
  - destruct K as ((x & L) & l & -> & B). apply (says_hdr s _ _ h x); [exact H|exact L|]. intros n E W _. cbn [c_string obind].
    assert (HT : htext_set a x (until_nul l) = if (32 <? length (until_nul l))%nat then Throw EInvalidArgument else Ok (match a with HSystemId => h_upd_sysid x (strncpy 32 (until_nul l)) | HSoftwareId => h_upd_swid x (strncpy 32 (until_nul l)) end)) by (destruct a; reflexivity).
    rewrite HT. destruct (Nat.ltb_spec 32 (length (until_nul l))) as [Z|Z]; cbn [obind tried]; [apply says_fail; left; exact Z|apply says_ok; [cbn; lia|cbn; tauto]].
  - destruct K as (y' & L). apply (says_hdr s _ _ h y'); [exact H|exact L|]. intros n E W _. apply says_ok; cbn; tauto.
  - destruct K as (I & y & L). apply (says_hdr s _ _ h y); [exact H|exact L|]. intros n E W _. unfold set_by_return.
    assert (LB : length (h_byret y) = 7%nat) by (destruct W as (_&_&_&_&_&_&_&_&_&_&_&_&_&_&_&_&_&_&LB&_); exact LB). rewrite LB.
    assert (Q : (0 <=? i mod 2 ^ 64) && (i mod 2 ^ 64 <? Z.of_nat 7) = true <-> 0 <= i <= 6).
    { unfold in_signed in I. rewrite andb_true_iff, Z.leb_le, Z.ltb_lt. clear - I. split.
      - intros (A & B). destruct (Z.lt_ge_cases i 0) as [N|N].
        + assert (i mod 2 ^ 64 = i + 2 ^ 64) by (symmetry; apply (Z.mod_unique_pos _ _ (-1)); lia). lia.
        + rewrite Z.mod_small in B by lia. lia.
      - intros B. rewrite Z.mod_small by lia. lia. }
    destruct (_ && _); cbn [obind tried]; [apply says_ok; cbn; [|tauto]|apply says_fail; left; cbn]; [assert (0 <= i <= 6) by now apply Q|intros Z; apply Q in Z; discriminate]. tauto.
  - destruct K as (I & y & L). apply (says_hdr s _ _ h y); [exact H|exact L|]. intros n E W ->. unfold delete_vlr.
    destruct (Z.leb_spec (Z.of_nat (length (h_vlrs y))) i) as [Z|Z]; cbn [obind tried]; [apply says_fail; left; cbn; eauto|apply says_ok; cbn; [|tauto]].
    intros (h & X & Y). assert (h = y) by congruence. subst. lia.
  - destruct K as ((x & L) & V). apply (says_hdr s _ _ h x); [exact H|exact L|]. intros n E W _. apply (says_vlr s _ _ v _ CK H); [reflexivity|exact V|]. intros m y -> W' E'. apply says_ok; cbn; [tauto|discriminate].
  - apply (says_pt s _ _ p _ H); [reflexivity|exact K|]. intros q L W. destruct (pnum_set_ok a q x W) as (q' & -> & HQ & BQ & LQ). cbn [obind tried]. apply says_ok; [cbn; tauto|cbn; intros ->; exact L].
  - destruct K as [->|(q & L & SC & OF & ST)]; [apply says_fail; now right|]. apply (says_pt s _ _ p _ H); [reflexivity|eauto|]. intros q0 L0 W.
    assert (q0 = q). { destruct (live_at dh xml Hdh s _ q H L) as ((? & E1 & _) & _). destruct (live_at dh xml Hdh s _ q0 H L0) as ((? & E2 & _) & _). rewrite E1 in E2. apply Ok_inj in E2. congruence. } subst q0.
    destruct (C06_quantisation q _ x W SC OF ST) as (q' & y & E & (_ & BQ & _) & _ & LQ & _).
    assert (X : preal_set a q x = Ok q') by (destruct a; exact E). rewrite X. cbn [obind tried]. apply says_ok; [cbn; tauto|cbn; intros ->; exact L].
  - apply (says_pt s _ _ p _ H); [reflexivity|exact K|]. intros q L W. destruct (set_time_ok q t W) as [(e & -> & ->)|(q' & -> & HQ & BQ & LQ)]; cbn [obind tried]; (apply says_ok; [cbn; tauto|cbn; intros ->; exact L]).
  - destruct K as [->|(L & C1 & C2 & C3)]; [apply says_fail; now right|]. apply (says_pt s _ _ p _ H); [reflexivity|auto|]. intros q L' W.
    destruct (set_color_ok q c W C1 C2 C3) as [(e & -> & ->)|(q' & -> & HQ & BQ & LQ)]; cbn [obind tried]; (apply says_ok; [cbn; tauto|cbn; intros ->; exact L']).
  - destruct K as [->|(q & L & B & R)]; [apply says_fail; now right|]. apply (says_pt s _ _ p _ H); [reflexivity|eauto|]. intros q0 L0 W.
    assert (q0 = q). { destruct (live_at dh xml Hdh s _ q H L) as ((? & E1 & _) & _). destruct (live_at dh xml Hdh s _ q0 H L0) as ((? & E2 & _) & _). rewrite E1 in E2. apply Ok_inj in E2. congruence. } subst q0.
    destruct (live_at dh xml Hdh s _ q H L) as (_ & (_ & LP) & _).
    replace (length (p_data q) =? Z.to_nat (get_record_length (p_hdr q)))%nat with true by (symmetry; apply Nat.eqb_eq; lia).
    replace (length (p_data q) <? Z.to_nat (get_record_length (p_hdr q)))%nat with false by (symmetry; apply Nat.ltb_ge; lia).
    replace (length d <? Z.to_nat (get_record_length (p_hdr q)))%nat with false by (symmetry; apply Nat.ltb_ge; lia). cbn [orb]. apply says_ok; [cbn; tauto|cbn; intros ->; exact L].
Qed.
End refusals.

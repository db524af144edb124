(** Proofs about the filter options. *)
From Coq Require Import ZArith Reals List Bool Lia Lra.
From Coq Require Import ZifyBool ZifyNat.
Import ListNotations.
From Verif Require Import Outcome Bytes Endian_Model Float64 Float64_Proofs Classif_Model Header_Model Point_Model Point_Spec Point_Api Point_Proofs
  Bounds_Model Bounds_Spec Bounds_Proofs Filter_Model Filter_Spec Filter_Api Filter_Proofs Prop_Bounds Prop_Filter Writer_Append Cli_Model Cli_Spec.
Local Open Scope Z_scope.
Local Notation length := List.length (only parsing).

(** ** numbers *)
Lemma digit_ok d : 0 <= d <= 9 -> digit (48 + d) = Some d.
Proof. intros H. unfold digit. replace ((48 <=? 48 + d) && (48 + d <=? 57)) with true by lia. f_equal. lia. Qed.
Lemma digits_from_app s t : forall a, digits_from a (s ++ t) = match digits_from a s with Some b => digits_from b t | None => None end.
Proof. induction s as [|c s IH]; intros a; cbn [app digits_from]; [reflexivity|]. destruct (digit c); [apply IH|reflexivity]. Qed.
Lemma numeral_from s v : numeral s v -> digits_from 0 s = Some v.
Proof.
  induction 1 as [d H|s v d _ IH H].
  - cbn [digits_from]. rewrite digit_ok by exact H. reflexivity.
  - rewrite digits_from_app, IH. cbn [digits_from]. rewrite digit_ok by exact H. f_equal. lia.
Qed.
Lemma numeral_chars s v : numeral s v -> s <> [] /\ 0 <= v /\ Forall (fun c => 48 <= c <= 57) s.
Proof.
  induction 1 as [d H|s v d _ (IH1 & IH2 & IH3) H].
  - split; [discriminate|]. split; [lia|]. constructor; [lia|constructor].
  - split; [destruct s; discriminate|]. split; [lia|]. apply Forall_app. split; [exact IH3|]. constructor; [lia|constructor].
Qed.
Lemma numeral_digits s v : numeral s v -> digits s = Some v.
Proof. intros H. pose proof (numeral_from s v H) as E. destruct (numeral_chars s v H) as (N & _). destruct s; [congruence|]. exact E. Qed.
Lemma numeral_head s v : numeral s v -> exists c r, s = c :: r /\ 48 <= c <= 57.
Proof. intros H. destruct (numeral_chars s v H) as (N & _ & F). destruct s as [|c r]; [congruence|]. exists c, r. split; [reflexivity|]. exact (Forall_inv F). Qed.
Lemma lex_unsigned_ok s v : intensity_text s v -> lex_unsigned 16 s = Ok v.
Proof.
  intros (H & L). pose proof (numeral_digits s v H) as E. destruct (numeral_head s v H) as (c & r & -> & C). unfold lex_unsigned.
  destruct (Z.eqb_spec c 45); [lia|]. destruct (Z.eqb_spec c 43); [lia|]. rewrite E. destruct (Z.ltb_spec v (2 ^ 16)); [reflexivity|lia].
Qed.
Lemma lex_signed_ok s v : angle_text s v -> lex_signed 32 s = Ok v.
Proof.
  intros (H & L). pose proof (numeral_digits s v H) as E. destruct (numeral_head s v H) as (c & r & -> & C). unfold lex_signed.
  destruct (Z.eqb_spec c 45); [lia|]. destruct (Z.eqb_spec c 43); [lia|]. rewrite E. change (32 - 1) with 31. destruct (Z.ltb_spec v (2 ^ 31)); [reflexivity|lia].
Qed.
Lemma prefix_from s : forall a v, digits_from a s = Some v -> digits_prefix a s = v.
Proof.
  induction s as [|c s IH]; intros a v E; cbn [digits_from digits_prefix] in *; [congruence|]. destruct (digit c); [now apply IH|discriminate].
Qed.
Lemma atoi_ok s v : numeral s v -> v < 2 ^ 31 -> atoi s = Ok v.
Proof.
  intros H L. pose proof (numeral_from s v H) as E. destruct (numeral_chars s v H) as (_ & P & _). destruct (numeral_head s v H) as (c & r & -> & C). unfold atoi. cbn [skip_blank].
  unfold is_blank. replace (((9 <=? c) && (c <=? 13)) || (c =? 32)) with false by lia.
  destruct (Z.eqb_spec c 45); [lia|]. destruct (Z.eqb_spec c 43); [lia|]. rewrite (prefix_from _ _ _ E).
  unfold in_signedb. change (32 - 1) with 31. replace ((- 2 ^ 31 <=? v) && (v <? 2 ^ 31)) with true by lia. reflexivity.
Qed.

(** ** splitting *)
Lemma find_first_at c a b : Forall (fun x => x <> c) a -> find_first c (a ++ [c] ++ b) = Some (length a).
Proof.
  induction 1 as [|x a Hx _ IH]; cbn [app find_first List.length]; [now rewrite Z.eqb_refl|].
  destruct (Z.eqb_spec x c); [congruence|]. cbn [app] in IH. now rewrite IH.
Qed.
Lemma tokens_run seps a : Forall (fun c => existsb (Z.eqb c) seps = false) a -> forall cur t, tokens_from seps cur (a ++ t) = tokens_from seps (cur ++ a) t.
Proof.
  induction 1 as [|x a Hx _ IH]; intros cur t; cbn [app tokens_from]; [now rewrite app_nil_r|]. rewrite Hx, IH, <- app_assoc. reflexivity.
Qed.
Lemma tokens_sep seps a c t : a <> [] -> Forall (fun c => existsb (Z.eqb c) seps = false) a -> existsb (Z.eqb c) seps = true ->
  tokens seps (a ++ [c] ++ t) = a :: tokens seps t.
Proof.
  intros N F S. unfold tokens. rewrite tokens_run by exact F. cbn [app tokens_from]. rewrite S. destruct a; [congruence|reflexivity].
Qed.
Lemma tokens_one seps a : a <> [] -> Forall (fun c => existsb (Z.eqb c) seps = false) a -> tokens seps a = [a].
Proof.
  intros N F. unfold tokens. rewrite <- (app_nil_r a) at 1. rewrite tokens_run by exact F. cbn [app tokens_from]. destruct a; [congruence|reflexivity].
Qed.

(** ** clauses: a list of filters that never change and that together select [P] *)
Definition cverdict (f : cfilt) (p : point) : bool := match cfilt_run f p with Ok (b, _) => b | _ => false end.
Definition clause (fs : list cfilt) (P : point -> Prop) : Prop :=
  forall p, usual_point p -> (forall f, In f fs -> cfilt_run f p = Ok (cverdict f p, f)) /\
    (forallb (fun f => cverdict f p) fs = true <-> P p).
Lemma clause_nil : clause [] (fun _ => True).
Proof. intros p W. split; [intros f []|]. cbn. tauto. Qed.
Lemma clause_app a b P Q : clause a P -> clause b Q -> clause (a ++ b) (fun p => P p /\ Q p).
Proof.
  intros A B p W. destruct (A p W) as (A1 & A2). destruct (B p W) as (B1 & B2). split.
  - intros f Hf. apply in_app_or in Hf as [Hf|Hf]; auto.
  - rewrite forallb_app, andb_true_iff, A2, B2. reflexivity.
Qed.
Lemma clause_one f P : (forall p, usual_point p -> exists b, cfilt_run f p = Ok (b, f) /\ (b = true <-> P p)) -> clause [f] P.
Proof.
  intros H p W. destruct (H p W) as (b & E & I). assert (V : cverdict f p = b) by (unfold cverdict; now rewrite E). split.
  - intros g [<-|[]]. now rewrite V.
  - cbn [forallb]. rewrite V, andb_true_r. exact I.
Qed.
Lemma clause_ext fs P Q : clause fs P -> (forall p, usual_point p -> (P p <-> Q p)) -> clause fs Q.
Proof. intros C E p W. destruct (C p W) as (A & B). split; [exact A|]. rewrite B. now apply E. Qed.

(** ** the loop over the points *)
Lemma cpoint_plain fs p : (forall f, In f fs -> cfilt_run f p = Ok (cverdict f p, f)) ->
  cfilter_point fs p = Ok (forallb (fun f => cverdict f p) fs, fs).
Proof.
  induction fs as [|f fs IH]; intros H; cbn [cfilter_point forallb]; [reflexivity|].
  rewrite (H f (or_introl eq_refl)). cbn [obind]. destruct (cverdict f p); cbn [negb andb]; [|reflexivity].
  rewrite IH; [reflexivity|]. intros g Hg. apply H. now right.
Qed.
Lemma cpoints_plain fs P ps : clause fs P -> Forall usual_point ps ->
  cfilter_points fs ps = Ok (filter (fun p => forallb (fun f => cverdict f p) fs) ps).
Proof.
  intros C. induction 1 as [|p ps Hp _ IH]; cbn [cfilter_points filter]; [reflexivity|].
  rewrite cpoint_plain by exact (proj1 (C p Hp)). cbn [obind]. rewrite IH. reflexivity.
Qed.
Lemma cpoint_thin a b k i p : (forall f, In f a -> cfilt_run f p = Ok (cverdict f p, f)) -> (forall f, In f b -> cfilt_run f p = Ok (cverdict f p, f)) ->
  1 <= k < 2 ^ 32 -> 0 <= i ->
  cfilter_point (a ++ CF (FThin (thin_at k i)) :: b) p =
    if forallb (fun f => cverdict f p) a
    then Ok (every_kth k i && forallb (fun f => cverdict f p) b, a ++ CF (FThin (thin_at k (i + 1))) :: b)
    else Ok (false, a ++ CF (FThin (thin_at k i)) :: b).
Proof.
  intros A B Hk Hi. induction a as [|f a IH]; cbn [cfilter_point forallb app cfilt_run filt_run].
  - rewrite thin_step by assumption. cbn [obind]. destruct (every_kth k i); cbn [negb andb]; [|reflexivity].
    rewrite cpoint_plain by exact B. reflexivity.
  - rewrite (A f (or_introl eq_refl)). cbn [obind]. destruct (cverdict f p); cbn [negb andb]; [|reflexivity].
    rewrite IH by (intros g Hg; apply A; now right). destruct (forallb (fun f : cfilt => cverdict f p) a); reflexivity.
Qed.
Lemma cpoints_thin a b P Q k ps : clause a P -> clause b Q -> Forall usual_point ps -> 1 <= k < 2 ^ 32 -> forall i, 0 <= i ->
  cfilter_points (a ++ CF (FThin (thin_at k i)) :: b) ps =
    Ok (filter (fun p => forallb (fun f => cverdict f p) b) (keep_at (every_kth k) i (filter (fun p => forallb (fun f => cverdict f p) a) ps))).
Proof.
  intros CA CB F Hk. induction F as [|p ps Hp _ IH]; intros i Hi; cbn [cfilter_points filter]; [reflexivity|].
  rewrite cpoint_thin; [|exact (proj1 (CA p Hp))|exact (proj1 (CB p Hp))|exact Hk|exact Hi].
  destruct (forallb (fun f => cverdict f p) a); cbn [obind keep_at].
  - rewrite IH by lia. cbn [obind]. destruct (every_kth k i); cbn [andb filter]; [|reflexivity].
    destruct (forallb (fun f => cverdict f p) b); reflexivity.
  - rewrite IH by lia. reflexivity.
Qed.

(** ** one option at a time *)
Lemma class_make_id c : 0 <= c < 32 -> class_make c false false false = Ok c.
Proof.
  intros H. assert (X : forall n, (n < 32)%nat -> class_make (Z.of_nat n) false false false = Ok (Z.of_nat n)).
  { intros n Hn. do 32 (destruct n as [|n]; [reflexivity|]). lia. }
  rewrite <- (Z2Nat.id c) by lia. apply X. lia.
Qed.
Lemma class_list_id l : Forall (fun c => 0 <= c < 32) l -> class_list l = Ok l.
Proof. induction 1 as [|c l H _ IH]; cbn [class_list]; [reflexivity|]. rewrite class_make_id by exact H. cbn [obind]. now rewrite IH. Qed.
Lemma clause_classes l : l <> [] -> clause [CF (FClass eInclusion l)] (fun p => exists c, get_classification p = Ok c /\ In c l).
Proof.
  intros N. apply clause_one. intros p W. destruct (C32_classification l p (proj1 W)) as (c & b & E & E2 & I). exists b. cbn [cfilt_run filt_run]. rewrite E2. split; [reflexivity|].
  rewrite I. unfold listed. split.
  - intros [Q|Q]; [congruence|]. exists c. auto.
  - intros (c' & E' & Q). rewrite E in E'. apply Writer_Append.Ok_inj in E'. subst c'. now right.
Qed.
Lemma clause_returns l : l <> [] -> clause [CF (FReturn eInclusion l false)] (fun p => exists c, get_return_number p = Ok c /\ In c l).
Proof.
  intros N. apply clause_one. intros p W. destruct (C32_returns l p (proj1 W)) as (c & b & E & E2 & I). exists b. cbn [cfilt_run filt_run]. rewrite E2. split; [reflexivity|].
  rewrite I. unfold listed. split.
  - intros [Q|Q]; [congruence|]. exists c. auto.
  - intros (c' & E' & Q). rewrite E in E'. apply Writer_Append.Ok_inj in E'. subst c'. now right.
Qed.
Lemma clause_first : clause [CF (FReturn eInclusion [1] false)] (fun p => get_return_number p = Ok 1).
Proof.
  apply (clause_ext _ _ _ (clause_returns [1] ltac:(discriminate))). intros p W. split.
  - intros (c & E & [Q|[]]). now subst c.
  - intros E. exists 1. split; [exact E|now left].
Qed.
Lemma clause_last : clause [CF (FReturn eInclusion [] true)] (fun p => exists r, get_return_number p = Ok r /\ get_number_of_returns p = Ok r).
Proof.
  apply clause_one. intros p W. destruct (C32_last_return [] p (proj1 W)) as (r & n & b & E & E2 & E3 & I). exists b. cbn [cfilt_run filt_run]. rewrite E3. split; [reflexivity|].
  rewrite I. split.
  - intros ->. exists n. auto.
  - intros (c & Q1 & Q2). rewrite E in Q1. rewrite E2 in Q2. apply Writer_Append.Ok_inj in Q1, Q2. congruence.
Qed.
Lemma clause_valid : clause [CF (FValid eInclusion)] (fun p => exists a, get_scan_angle p = Ok a /\ -90 <= a <= 90).
Proof.
  apply clause_one. intros p W. destruct (C32_validation p (proj1 W)) as (a & b & E & E2 & I & _). exists b. cbn [cfilt_run filt_run]. rewrite E2. split; [reflexivity|].
  rewrite I. split.
  - intros Q. exists a. auto.
  - intros (a' & Q & Q2). rewrite E in Q. apply Writer_Append.Ok_inj in Q. now subst a'.
Qed.
Lemma clause_color lo hi : clause [CF (FColor eInclusion (color_filter2 lo hi))] (fun p => exists v, get_color p = Ok v /\ between_colors (lo, hi) v).
Proof.
  apply clause_one. intros p W. destruct (C32_color lo hi p (proj1 W)) as (c & b & E & E2 & I). exists b. cbn [cfilt_run filt_run]. rewrite E2. split; [reflexivity|].
  rewrite I. unfold between_colors. cbn [fst snd]. split.
  - intros Q. exists c. auto.
  - intros (a' & Q & Q2). rewrite E in Q. apply Writer_Append.Ok_inj in Q. now subst a'.
Qed.
Lemma clause_not_color lo hi : clause [CF (FColor eExclusion (color_filter2 lo hi))] (fun p => exists v, get_color p = Ok v /\ ~ between_colors (lo, hi) v).
Proof.
  apply clause_one. intros p W. destruct (C32_color lo hi p (proj1 W)) as (c & b & E & E2 & I).
  destruct (C33_color_exclusion (color_filter2 lo hi) p (proj1 W)) as (b' & E3 & E4). rewrite E2 in E3. apply Writer_Append.Ok_inj in E3. subst b'.
  exists (negb b). cbn [cfilt_run filt_run]. rewrite E4. split; [reflexivity|].
  unfold between_colors. cbn [fst snd]. destruct b; cbn [negb]; split.
  - discriminate.
  - intros (a' & Q & Q2). rewrite E in Q. apply Writer_Append.Ok_inj in Q. subst a'. destruct Q2. now apply I.
  - intros _. exists c. split; [exact E|]. intros Q. apply I in Q. discriminate.
  - reflexivity.
Qed.
Definition box_bounds (b : box) : bounds :=
  match b_z b with None => bounds4 (b_minx b) (b_miny b) (b_maxx b) (b_maxy b)
              | Some zs => bounds6 (b_minx b) (b_miny b) (fst zs) (b_maxx b) (b_maxy b) (snd zs) end.
Lemma clause_box b : box_ok b -> clause [CF (FBounds eInclusion (box_bounds b))]
  (fun p => exists x y z, get_x p = Ok x /\ get_y p = Ok y /\ get_z p = Ok z /\ in_box b x y z).
Proof.
  intros (F1 & F2 & F3 & F4 & FZ). apply clause_one. intros p (W & Wx & Wy & Wz & _).
  destruct (wf_xyz p W) as (x & y & z & Ex & Ey & Ez).
  assert (R : forall P : f64 -> f64 -> f64 -> Prop, (exists x y z, get_x p = Ok x /\ get_y p = Ok y /\ get_z p = Ok z /\ P x y z) <-> P x y z).
  { intros P. split; [intros (x' & y' & z' & E1 & E2 & E3 & Q); rewrite Ex in E1; rewrite Ey in E2; rewrite Ez in E3; apply Writer_Append.Ok_inj in E1, E2, E3; now subst|].
    intros Q. exists x, y, z. auto. }
  unfold in_box, box_bounds. cbn [cfilt_run filt_run]. destruct (b_z b) as [[lo hi]|] eqn:EB.
  - destruct (FZ _ eq_refl) as (Z1 & Z2 & Z3). cbn [fst snd] in *.
    destruct (C32_bounds3 (b_minx b) (b_miny b) lo (b_maxx b) (b_maxy b) hi p x y z W) as (v & E & I); auto.
    { constructor; [split; assumption|constructor; [split; assumption|constructor; [split; assumption|constructor]]]. }
    exists v. rewrite E. split; [reflexivity|]. rewrite R. exact I.
  - destruct (C32_bounds2 (b_minx b) (b_miny b) (b_maxx b) (b_maxy b) p x y W) as (v & E & I); auto.
    { constructor; [split; assumption|constructor; [split; assumption|constructor]]. }
    exists v. rewrite E. split; [reflexivity|]. rewrite R, I. tauto.
Qed.

(** values *)
Lemma cmp_Z_R o a b : cmp_Z o a b = true <-> compared o (IZR a) (IZR b).
Proof.
  destruct o; cbn [cmp_Z compared]; rewrite ?Z.leb_le, ?Z.ltb_lt, ?Z.eqb_eq; split; intros H;
    auto using IZR_le, IZR_lt, eq_IZR, le_IZR, lt_IZR; congruence.
Qed.
Lemma cmp_d_R o a b : f64_fin a = true -> f64_fin b = true -> (cmp_d o a b = true <-> compared o (f64_R a) (f64_R b)).
Proof.
  intros A B. destruct o; cbn [cmp_d compared]; unfold f64_ge, f64_gt;
    [apply f64_le_R|apply f64_lt_R|apply f64_le_R|apply f64_lt_R|apply f64_eq_R]; assumption.
Qed.
Lemma wf_intensity p : point_wf p -> exists v, get_intensity p = Ok v.
Proof. intros W. destruct (wf_get p AIntensity 96 16 false W eq_refl) as (v & E & _). cbn [api_get] in E. eauto. Qed.
Lemma wf_angle p : point_wf p -> exists v, get_scan_angle p = Ok v.
Proof. intros W. destruct (wf_valid p W) as (v & E & _). eauto. Qed.
Lemma wf_time p : point_wf p -> exists v, get_time p = Ok v.
Proof.
  intros W. destruct (attr_range (p_format p) ATime) as [[[s w] sg]|] eqn:E.
  - pose proof (api_get_spec p ATime s w sg W E) as H. cbn [api_get] in H. destruct (get_time p) as [c| |]; [exists c; reflexivity|discriminate|discriminate].
  - destruct (time_absent p W E) as (_ & H). eauto.
Qed.
(** a getter, its filters, and the real number they compare *)
Record value_kind {V} (get : point -> outcome V) (mk : ftype -> option cmp_op -> V -> cfilt) (val : V -> R) (okv : V -> Prop) : Prop := {
  vk_get : forall p, usual_point p -> exists v, get p = Ok v;
  vk_run : forall t o n p v, usual_point p -> okv n -> get p = Ok v ->
    exists b, cfilt_run (mk t (Some o) n) p = Ok (b, mk t (Some o) n) /\ (b = true <-> if is_inclusion t then compared o (val v) (val n) else ~ compared o (val v) (val n)) }.
Lemma value_pick {V} (get : point -> outcome V) p v (P : V -> Prop) : get p = Ok v -> ((exists x, get p = Ok x /\ P x) <-> P v).
Proof.
  intros E. split; [|intros H; exists v; auto]. intros (x & Q & H). rewrite E in Q. apply Writer_Append.Ok_inj in Q. now subst x.
Qed.
Lemma run_Z t o n v : exists b, value_filter t (option_map cmp_Z (Some o)) n v = Ok b /\
  (b = true <-> if is_inclusion t then compared o (IZR v) (IZR n) else ~ compared o (IZR v) (IZR n)).
Proof.
  cbn [option_map]. destruct t; cbn [is_inclusion].
  - rewrite C33_value_exclusion. eexists. split; [reflexivity|]. rewrite <- cmp_Z_R. destruct (cmp_Z o v n); cbn [negb]; split; congruence.
  - rewrite C32_value. eexists. split; [reflexivity|]. apply cmp_Z_R.
Qed.
Lemma kind_intensity : value_kind get_intensity CIntensity IZR (fun _ => True).
Proof.
  split.
  - intros p W. apply wf_intensity. exact (proj1 W).
  - intros t o n p v W _ E. destruct (run_Z t o n v) as (b & E2 & I). exists b. cbn [cfilt_run]. rewrite E. cbn [obind]. rewrite E2. auto.
Qed.
Lemma kind_angle : value_kind get_scan_angle CAngle IZR (fun _ => True).
Proof.
  split.
  - intros p W. apply wf_angle. exact (proj1 W).
  - intros t o n p v W _ E. destruct (run_Z t o n v) as (b & E2 & I). exists b. cbn [cfilt_run]. rewrite E. cbn [obind]. rewrite E2. auto.
Qed.
Lemma kind_time : value_kind get_time CTime f64_R (fun v => f64_fin v = true).
Proof.
  split.
  - intros p W. apply wf_time. exact (proj1 W).
  - intros t o n p v (_ & _ & _ & _ & WT) Hn E. pose proof (cmp_d_R o v n (WT v E) Hn) as C. cbn [cfilt_run]. rewrite E. cbn [obind option_map].
    destruct t; cbn [is_inclusion].
    + rewrite C33_value_exclusion. eexists. split; [reflexivity|]. rewrite <- C. destruct (cmp_d o v n); cbn [negb]; split; congruence.
    + rewrite C32_value. eexists. split; [reflexivity|]. exact C.
Qed.
Section Value.
Context {V : Type} (get : point -> outcome V) (mk : ftype -> option cmp_op -> V -> cfilt) (val : V -> R) (okv : V -> Prop).
Hypothesis K : value_kind get mk val okv.
Context (make : text -> ftype -> outcome cfilt) (number : text -> V -> Prop).
Hypothesis MK : forall o s v t, number s v -> make (op_text o ++ s) t = Ok (mk t (Some o) v).
Hypothesis NUM : forall s v, number s v -> okv v /\ Forall (fun c => c <> 45) s.
Lemma clause_cmp t o n : okv n -> clause [mk t (Some o) n]
  (fun p => exists v, get p = Ok v /\ if is_inclusion t then compared o (val v) (val n) else ~ compared o (val v) (val n)).
Proof.
  intros H. apply clause_one. intros p W. destruct (vk_get _ _ _ _ K p W) as (v & E). destruct (vk_run _ _ _ _ K t o n p v W H E) as (b & E2 & I).
  exists b. split; [exact E2|]. rewrite (value_pick get p v _ E). exact I.
Qed.
Lemma no_dash o s : Forall (fun c => c <> 45) s -> find_first ch_dash (op_text o ++ s) = None.
Proof.
  intros F. apply first_absent. apply Forall_app. split; [|exact F]. destruct o; cbn [op_text]; repeat (apply Forall_cons; [discriminate|]); apply Forall_nil.
Qed.
Lemma keep_value_ok c s : condition_text number c s ->
  exists fs, keep_value make s = Ok fs /\ clause fs (fun p => exists v, get p = Ok v /\ holds val c v).
Proof.
  intros H. destruct H as [a b lo hi Ha Hb|o a n Ha]; unfold keep_value.
  - destruct (NUM a lo Ha) as (Ka & Fa). destruct (NUM b hi Hb) as (Kb & Fb). rewrite find_first_at by exact Fa.
    rewrite firstn_app, Nat.sub_diag, firstn_all. cbn [firstn]. rewrite app_nil_r.
    replace (skipn (S (length a)) (a ++ [45] ++ b)) with b by (rewrite skipn_app, skipn_all2 by lia; replace (S (length a) - length a)%nat with 1%nat by lia; reflexivity).
    change [ch_gt; ch_eq] with (op_text OpGe). change [ch_lt; ch_eq] with (op_text OpLe). rewrite (MK OpGe a lo eInclusion Ha), (MK OpLe b hi eInclusion Hb). cbn [obind].
    eexists. split; [reflexivity|]. change [mk eInclusion (Some OpGe) lo; mk eInclusion (Some OpLe) hi] with ([mk eInclusion (Some OpGe) lo] ++ [mk eInclusion (Some OpLe) hi]).
    apply (clause_ext _ _ _ (clause_app _ _ _ _ (clause_cmp eInclusion OpGe lo Ka) (clause_cmp eInclusion OpLe hi Kb))). intros p W.
    destruct (vk_get _ _ _ _ K p W) as (v & E). rewrite !(value_pick get p v _ E). cbn [holds is_inclusion compared]. tauto.
  - destruct (NUM a n Ha) as (Ka & Fa). rewrite no_dash by exact Fa. rewrite (MK o a n eInclusion Ha). cbn [obind].
    eexists. split; [reflexivity|]. exact (clause_cmp eInclusion o n Ka).
Qed.
Lemma drop_value_ok c s : dropped number c s ->
  exists fs, drop_value make s = Ok fs /\ clause fs (fun p => exists v, get p = Ok v /\ ~ compared (fst c) (val v) (val (snd c))).
Proof.
  intros H. unfold dropped in H. destruct c as (o & n). cbn [fst snd] in *.
  assert (X : exists a, number a n /\ s = op_text o ++ a) by (inversion H; subst; eauto). destruct X as (a & Ha & ->).
  destruct (NUM a n Ha) as (Ka & Fa). unfold drop_value, is_dual_range. rewrite no_dash by exact Fa. rewrite (MK o a n eExclusion Ha). cbn [obind].
  eexists. split; [reflexivity|]. exact (clause_cmp eExclusion o n Ka).
Qed.
End Value.
Lemma op_text_same o : Cli_Spec.op_text o = Prop_Filter.op_text o.
Proof. destruct o; reflexivity. Qed.
Lemma numeral_plain s v : numeral s v -> no_op_char s /\ Forall (fun c => c <> 45) s.
Proof.
  intros H. destruct (numeral_chars s v H) as (_ & _ & F). split; (eapply Forall_impl; [|exact F]); cbn; lia.
Qed.
Lemma make_intensity_ok o s v t : intensity_text s v -> make_intensity (op_text o ++ s) t = Ok (CIntensity t (Some o) v).
Proof.
  intros H. unfold make_intensity. rewrite op_text_same, C32_expression by exact (proj1 (numeral_plain s v (proj1 H))). rewrite (lex_unsigned_ok s v H). reflexivity.
Qed.
Lemma make_angle_ok o s v t : angle_text s v -> make_angle (op_text o ++ s) t = Ok (CAngle t (Some o) v).
Proof.
  intros H. unfold make_angle. rewrite op_text_same, C32_expression by exact (proj1 (numeral_plain s v (proj1 H))). rewrite (lex_signed_ok s v H). reflexivity.
Qed.
Lemma make_time_ok lexd o s v t : time_text lexd s v -> make_time lexd (op_text o ++ s) t = Ok (CTime t (Some o) v).
Proof.
  intros (H & _ & F). unfold make_time. rewrite op_text_same, C32_expression by (eapply Forall_impl; [|exact F]; cbn; tauto). rewrite H. reflexivity.
Qed.

(** colours *)
Lemma color_text_chars s c : color_text s c -> s <> [] /\ Forall (fun c => c <> 45) s.
Proof.
  intros (r & g & b & Hr & Hg & Hb & _ & ->). destruct (numeral_plain _ _ Hr) as (_ & Fr). destruct (numeral_plain _ _ Hg) as (_ & Fg). destruct (numeral_plain _ _ Hb) as (_ & Fb).
  split; [destruct r; discriminate|]. repeat (apply Forall_app; split); try assumption; (apply Forall_cons; [discriminate|apply Forall_nil]).
Qed.
Lemma numeral_no_comma s v : numeral s v -> s <> [] /\ Forall (fun c => existsb (Z.eqb c) [ch_comma] = false) s.
Proof.
  intros H. destruct (numeral_chars s v H) as (N & _ & F). split; [exact N|]. eapply Forall_impl; [|exact F]. cbn. intros c Hc. unfold ch_comma. lia.
Qed.
Lemma color_values_ok s c : color_text s c -> color_values (tokens [ch_comma] s) = Ok [c_red c; c_green c; c_blue c].
Proof.
  intros (r & g & b & Hr & Hg & Hb & (C1 & C2 & C3) & ->). unfold in_unsigned in *.
  destruct (numeral_no_comma _ _ Hr) as (Nr & Fr). destruct (numeral_no_comma _ _ Hg) as (Ng & Fg). destruct (numeral_no_comma _ _ Hb) as (Nb & Fb).
  change 44 with ch_comma. rewrite tokens_sep by (auto; reflexivity). rewrite tokens_sep by (auto; reflexivity). rewrite tokens_one by auto.
  cbn [color_values]. rewrite (atoi_ok r _ Hr), (atoi_ok g _ Hg), (atoi_ok b _ Hb) by lia. cbn [obind].
  replace ((c_red c <? 0) || (65535 <? c_red c)) with false by lia. replace ((c_green c <? 0) || (65535 <? c_green c)) with false by lia.
  replace ((c_blue c <? 0) || (65535 <? c_blue c)) with false by lia. cbn [obind]. rewrite !Z.mod_small by lia. reflexivity.
Qed.
Lemma color_make_id c : color_ok c -> color_make (c_red c) (c_green c) (c_blue c) = Ok c.
Proof.
  intros (C1 & C2 & C3). unfold in_unsigned in *. unfold color_make. replace ((65535 <? c_red c) || (65535 <? c_green c) || (65535 <? c_blue c)) with false by lia.
  rewrite !Z.mod_small by lia. now destruct c.
Qed.
Lemma make_color_ok s c t : colors_text s c -> make_color s t = Ok [CF (FColor t (color_filter2 (fst c) (snd c)))].
Proof.
  intros (lo & hi & Hl & Hh & ->). destruct (color_text_chars _ _ Hl) as (Nl & Fl). destruct (color_text_chars _ _ Hh) as (Nh & Fh).
  assert (D : forall s : text, Forall (fun c => c <> 45) s -> Forall (fun c => existsb (Z.eqb c) [ch_dash] = false) s)
    by (intros s F; eapply Forall_impl; [|exact F]; cbn; intros; unfold ch_dash; lia).
  unfold make_color. change 45 with ch_dash. rewrite tokens_sep by (auto; reflexivity). rewrite tokens_one by auto.
  cbn [colors_of]. rewrite (color_values_ok _ _ Hl), (color_values_ok _ _ Hh). cbn [obind].
  destruct Hl as (? & ? & ? & _ & _ & _ & Ol & _). destruct Hh as (? & ? & ? & _ & _ & _ & Oh & _).
  rewrite (color_make_id _ Ol), (color_make_id _ Oh). reflexivity.
Qed.

(** a box *)
Lemma side_box_none o : o_minx o = None -> o_maxx o = None -> o_miny o = None -> o_maxy o = None -> o_minz o = None -> o_maxz o = None -> side_box o = ([], false).
Proof. intros E1 E2 E3 E4 E5 E6. unfold side_box, set_side. rewrite E1, E2, E3, E4, E5, E6. reflexivity. Qed.
Lemma side_box_some o b : o_minx o = Some (b_minx b) -> o_maxx o = Some (b_maxx b) -> o_miny o = Some (b_miny b) -> o_maxy o = Some (b_maxy b) ->
  o_minz o = option_map fst (b_z b) -> o_maxz o = option_map snd (b_z b) -> side_box o = (box_bounds b, true).
Proof.
  intros E1 E2 E3 E4 E5 E6. unfold side_box, set_side, box_bounds. rewrite E1, E2, E3, E4, E5, E6. destruct (b_z b) as [[lo hi]|]; reflexivity.
Qed.
Lemma extent_box_ok atof s b : map atof (tokens separators s) =
           match b_z b with None => [b_minx b; b_miny b; b_maxx b; b_maxy b]
                       | Some zs => [b_minx b; b_miny b; fst zs; b_maxx b; b_maxy b; snd zs] end -> extent_box atof s = Ok (box_bounds b).
Proof. intros E. unfold extent_box, box_bounds. rewrite E. destruct (b_z b) as [zs|]; reflexivity. Qed.

(** an absent option, and a present one *)
Lemma opt_clause {A B} (Q : B -> A -> Prop) (q : option B) (o : option A) (f : A -> outcome (list cfilt)) (P : B -> point -> Prop) :
  both Q q o -> (forall b a, Q b a -> exists fs, f a = Ok fs /\ clause fs (P b)) ->
  exists fs, opt o f = Ok fs /\ clause fs (fun p => when q (fun b => P b p)).
Proof.
  intros H F. destruct q as [b|], o as [a|]; cbn [both opt when] in *; try contradiction.
  - exact (F b a H).
  - exists []. split; [reflexivity|exact clause_nil].
Qed.
Lemma flag_clause (b : bool) f P : clause [f] P -> clause (if b then [f] else []) (fun p => b = true -> P p).
Proof.
  intros C. destruct b.
  - apply (clause_ext _ _ _ C). tauto.
  - apply (clause_ext _ _ _ clause_nil). intros. split; [discriminate|tauto].
Qed.

Lemma get_filters_ok lexd atof o q : typed lexd atof o q -> exists a b, clause a (selected_first q) /\ clause b (selected_then q) /\
  get_filters lexd atof o = Ok (a ++ (if q_thin q =? 0 then [] else [CF (FThin (thin_new (q_thin q)))]) ++ b).
Proof.
  intros (T1 & T2 & T3 & T4 & T5 & T6 & T7 & T8 & T9 & T10 & T11 & T12 & T13 & T14 & T15 & T16 & T17 & T18 & T19 & T20).
  destruct (opt_clause _ _ _ (fun l => make_classes l eInclusion) (fun l p => exists c, get_classification p = Ok c /\ In c l) T1) as (f1 & E1 & C1).
  { intros b a (<- & N & F). unfold make_classes. rewrite class_list_id by exact F. cbn [obind]. eexists. split; [reflexivity|]. apply clause_classes, N. }
  destruct (opt_clause _ _ _ (fun l => Ok [CF (FReturn eInclusion l false)]) (fun l p => exists c, get_return_number p = Ok c /\ In c l) T3) as (f3 & E3 & C3).
  { intros b a (<- & N). eexists. split; [reflexivity|]. apply clause_returns, N. }
  assert (X5 : exists fs, opt (o_extent o) (extent_filter atof o) = Ok fs /\
     clause fs (fun p => when (q_extent q) (fun b => exists x y z, get_x p = Ok x /\ get_y p = Ok y /\ get_z p = Ok z /\ in_box b x y z))).
  { destruct (q_extent q) as [b|], (o_extent o) as [s|] eqn:EX; cbn [both opt when] in *; try contradiction.
    - destruct T5 as (O & M). unfold extent_filter. rewrite (extent_box_ok atof s b M). cbn [obind].
      assert (X : side_box o = ([], false)).
      { destruct (q_sides q) as [sb|]; [destruct T6; discriminate|]. destruct T6 as (X1 & X2 & X3 & X4 & X5 & X6). now apply side_box_none. }
      rewrite X. cbn [obind fst snd]. eexists. split; [reflexivity|]. now apply clause_box.
    - exists []. split; [reflexivity|exact clause_nil]. }
  destruct X5 as (f5 & E5 & C5).
  assert (NZ : forall s v, intensity_text s v -> True /\ Forall (fun c => c <> 45) s) by (intros s v H; split; [exact I|exact (proj2 (numeral_plain s v (proj1 H)))]).
  assert (NA : forall s v, angle_text s v -> True /\ Forall (fun c => c <> 45) s) by (intros s v H; split; [exact I|exact (proj2 (numeral_plain s v (proj1 H)))]).
  assert (NT : forall s v, time_text lexd s v -> f64_fin v = true /\ Forall (fun c => c <> 45) s)
    by (intros s v (_ & H & F); split; [exact H|eapply Forall_impl; [|exact F]; cbn; tauto]).
  destruct (opt_clause _ _ _ (keep_value make_intensity) (fun c p => exists v, get_intensity p = Ok v /\ holds IZR c v) T7) as (f6 & E6 & C6).
  { exact (keep_value_ok get_intensity CIntensity IZR _ kind_intensity make_intensity intensity_text make_intensity_ok NZ). }
  destruct (opt_clause _ _ _ (drop_value make_intensity) (fun c p => exists v, get_intensity p = Ok v /\ ~ compared (fst c) (IZR v) (IZR (snd c))) T8) as (f7 & E7 & C7).
  { exact (drop_value_ok get_intensity CIntensity IZR _ kind_intensity make_intensity intensity_text make_intensity_ok NZ). }
  destruct (opt_clause _ _ _ (keep_value make_angle) (fun c p => exists v, get_scan_angle p = Ok v /\ holds IZR c v) T9) as (f8 & E8 & C8).
  { exact (keep_value_ok get_scan_angle CAngle IZR _ kind_angle make_angle angle_text make_angle_ok NA). }
  destruct (opt_clause _ _ _ (drop_value make_angle) (fun c p => exists v, get_scan_angle p = Ok v /\ ~ compared (fst c) (IZR v) (IZR (snd c))) T10) as (f9 & E9 & C9).
  { exact (drop_value_ok get_scan_angle CAngle IZR _ kind_angle make_angle angle_text make_angle_ok NA). }
  destruct (opt_clause _ _ _ (keep_value (make_time lexd)) (fun c p => exists v, get_time p = Ok v /\ holds f64_R c v) T11) as (f10 & E10 & C10).
  { exact (keep_value_ok get_time CTime f64_R _ kind_time (make_time lexd) (time_text lexd) (make_time_ok lexd) NT). }
  destruct (opt_clause _ _ _ (drop_value (make_time lexd)) (fun c p => exists v, get_time p = Ok v /\ ~ compared (fst c) (f64_R v) (f64_R (snd c))) T12) as (f11 & E11 & C11).
  { exact (drop_value_ok get_time CTime f64_R _ kind_time (make_time lexd) (time_text lexd) (make_time_ok lexd) NT). }
  destruct (opt_clause _ _ _ (fun s => make_color s eInclusion) (fun c p => exists v, get_color p = Ok v /\ between_colors c v) T13) as (f12 & E12 & C12).
  { intros (lo & hi) s H. rewrite (make_color_ok s _ eInclusion H). eexists. split; [reflexivity|]. apply clause_color. }
  destruct (opt_clause _ _ _ (fun s => make_color s eExclusion) (fun c p => exists v, get_color p = Ok v /\ ~ between_colors c v) T14) as (f13 & E13 & C13).
  { intros (lo & hi) s H. rewrite (make_color_ok s _ eExclusion H). eexists. split; [reflexivity|]. apply clause_not_color. }
  assert (X18 : exists f18, (if snd (side_box o) then match o_extent o with Some _ => [] | None => [CF (FBounds eInclusion (fst (side_box o)))] end else []) = f18 /\
     clause f18 (fun p => when (q_sides q) (fun b => exists x y z, get_x p = Ok x /\ get_y p = Ok y /\ get_z p = Ok z /\ in_box b x y z))).
  { eexists. split; [reflexivity|]. destruct (q_sides q) as [b|]; cbn [when].
    - destruct T6 as (X0 & OB & X1 & X2 & X3 & X4 & X5 & X6). rewrite (side_box_some o b), X0 by assumption. cbn [fst snd]. now apply clause_box.
    - destruct T6 as (X1 & X2 & X3 & X4 & X5 & X6). rewrite side_box_none by assumption. exact clause_nil. }
  destruct X18 as (f18 & E18 & C18).
  exists (f1 ++ f3 ++ f5 ++ f6 ++ f7 ++ f8 ++ f9 ++ f10 ++ f11 ++ f12 ++ f13),
    ((if q_last q then [CF (FReturn eInclusion [] true)] else []) ++ (if q_first q then [CF (FReturn eInclusion [1] false)] else []) ++ (if q_valid q then [CF (FValid eInclusion)] else []) ++ f18).
  split; [|split].
  - exact (clause_app _ _ _ _ C1 (clause_app _ _ _ _ C3 (clause_app _ _ _ _ C5 (clause_app _ _ _ _ C6 (clause_app _ _ _ _ C7 (clause_app _ _ _ _ C8 (clause_app _ _ _ _ C9
      (clause_app _ _ _ _ C10 (clause_app _ _ _ _ C11 (clause_app _ _ _ _ C12 C13)))))))))).
  - exact (clause_app _ _ _ _ (flag_clause _ _ _ clause_last) (clause_app _ _ _ _ (flag_clause _ _ _ clause_first) (clause_app _ _ _ _ (flag_clause _ _ _ clause_valid) C18))).
  - unfold get_filters. rewrite E1, T2, E3, T4, E5, E6, E7, E8, E9, E10, E11, E12, E13, E18, T15, T17, T18, T19, T20. cbn [opt obind].
    rewrite ?app_assoc, ?app_nil_r. reflexivity.
Qed.
Lemma thin_new_at k : 1 <= k < 2 ^ 32 -> thin_new k = thin_at k 0.
Proof. intros H. unfold thin_new, thin_at. rewrite (Z.mod_small k) by lia. reflexivity. Qed.
Lemma filter_both {A} (f g : A -> bool) l : filter g (filter f l) = filter (fun x => f x && g x) l.
Proof. induction l as [|x l IH]; cbn [filter]; [reflexivity|]. destruct (f x); cbn [filter andb]; [|exact IH]. now rewrite IH. Qed.

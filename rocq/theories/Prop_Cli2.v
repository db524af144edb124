(** C73, continued: ranges whose upper bound is typed with a minus sign. *)
From Coq Require Import ZArith Reals List Bool Lia Lra.
Import ListNotations.
From Verif Require Import Outcome Bytes Float64 Float64_Proofs Classif_Model Header_Model Point_Model Point_Spec Filter_Model Filter_Spec Filter_Api Prop_Filter
  Cli_Model Cli_Spec Cli_Proofs Prop_Cli.
Local Open Scope Z_scope.
Local Notation length := List.length (only parsing).

Lemma minus_no_op b n : numeral b n -> no_op_char (45 :: b).
Proof. intros H. constructor; [repeat split; discriminate|]. exact (proj1 (numeral_plain b n H)). Qed.
Lemma lex_unsigned_minus b n : numeral b n -> lex_unsigned 16 (45 :: b) = if n <? 2 ^ 16 then Ok ((- n) mod 2 ^ 16) else Throw EInvalidArgument.
Proof. intros H. unfold lex_unsigned. cbn [Z.eqb Pos.eqb]. rewrite (numeral_digits b n H). reflexivity. Qed.
Lemma lex_signed_minus b n : numeral b n -> lex_signed 32 (45 :: b) = if n <=? 2 ^ 31 then Ok (- n) else Throw EInvalidArgument.
Proof. intros H. unfold lex_signed. cbn [Z.eqb Pos.eqb]. rewrite (numeral_digits b n H). reflexivity. Qed.

(** "lo--n": what the two halves become *)
Lemma keep_value_minus make a b lo : numeral a lo -> keep_value make (a ++ [45; 45] ++ b) =
  (let! x := make (op_text OpGe ++ a) eInclusion in let! y := make (op_text OpLe ++ 45 :: b) eInclusion in Ok [x; y]).
Proof.
  intros H. unfold keep_value. change (a ++ [45; 45] ++ b) with (a ++ [ch_dash] ++ 45 :: b).
  rewrite find_first_at by exact (proj2 (numeral_plain a lo H)). rewrite firstn_app, Nat.sub_diag, firstn_all. cbn [firstn]. rewrite app_nil_r.
  replace (skipn (S (length a)) (a ++ [ch_dash] ++ 45 :: b)) with (45 :: b)
    by (rewrite skipn_app, skipn_all2 by lia; replace (S (length a) - length a)%nat with 1%nat by lia; reflexivity).
  reflexivity.
Qed.
Definition keep_intensity (s : text) : cli := mkCli None None None None None None None None None None None (Some s) None None None None None None None 0 false false false.
Lemma only_intensity lexd atof s : get_filters lexd atof (keep_intensity s) = (let! f := keep_value make_intensity s in Ok f).
Proof.
  unfold get_filters, keep_intensity. cbn [o_drop_classes o_keep_classes o_keep_returns o_drop_returns o_extent o_keep_intensity o_drop_intensity o_keep_angle o_drop_angle
    o_keep_time o_drop_time o_keep_color o_drop_color o_thin o_last o_first o_valid opt obind andb Z.eqb]. rewrite side_box_none by reflexivity.
  destruct (keep_value make_intensity s) as [f| |]; cbn [obind app]; [|reflexivity|reflexivity]. cbn [snd fst app]. rewrite ?app_nil_r. reflexivity.
Qed.
Lemma only_angle lexd atof s : get_filters lexd atof (keep_angle s) = (let! f := keep_value make_angle s in Ok f).
Proof.
  unfold get_filters, keep_angle. cbn [o_drop_classes o_keep_classes o_keep_returns o_drop_returns o_extent o_keep_intensity o_drop_intensity o_keep_angle o_drop_angle
    o_keep_time o_drop_time o_keep_color o_drop_color o_thin o_last o_first o_valid opt obind andb Z.eqb]. rewrite side_box_none by reflexivity.
  destruct (keep_value make_angle s) as [f| |]; cbn [obind app]; [|reflexivity|reflexivity]. cbn [snd fst app]. rewrite ?app_nil_r. reflexivity.
Qed.

Lemma kept_points fs P ps : clause fs P -> Forall usual_point ps -> exists kept, cfilter_points fs ps = Ok kept /\ forall p, In p kept <-> In p ps /\ P p.
Proof.
  intros C W. eexists. split; [exact (cpoints_plain fs P ps C W)|]. intros p. rewrite filter_In. rewrite Forall_forall in W.
  split; intros (A & B); (split; [exact A|]); apply (proj2 (C p (W p A))); exact B.
Qed.
(** --keep-intensity lo--n is not reported as malformed: it keeps the intensities
    from lo to 2^16 - n. *)
Theorem C73_negative_intensity_refuted : forall lexd atof a b lo n, numeral a lo -> lo < 2 ^ 16 -> numeral b n ->
  (n < 2 ^ 16 -> exists fs, get_filters lexd atof (keep_intensity (a ++ [45; 45] ++ b)) = Ok fs /\
     forall ps, Forall usual_point ps -> exists kept, cfilter_points fs ps = Ok kept /\
       forall p, In p kept <-> In p ps /\ exists v, get_intensity p = Ok v /\ lo <= v <= (if n =? 0 then 0 else 2 ^ 16 - n)) /\
  (2 ^ 16 <= n -> get_filters lexd atof (keep_intensity (a ++ [45; 45] ++ b)) = Throw EInvalidArgument).
Proof.
  intros lexd atof a b lo n Ha L Hb. rewrite only_intensity, (keep_value_minus _ _ _ _ Ha), (make_intensity_ok OpGe a lo eInclusion (conj Ha L)). cbn [obind].
  unfold make_intensity. rewrite op_text_same, C32_expression by exact (minus_no_op b n Hb). rewrite (lex_unsigned_minus b n Hb).
  pose proof (proj1 (proj2 (numeral_chars b n Hb))) as P. split; intros B.
  - destruct (Z.ltb_spec n (2 ^ 16)); [|lia]. cbn [obind]. eexists. split; [reflexivity|]. intros ps W.
    pose proof (clause_app _ _ _ _ (clause_cmp get_intensity CIntensity IZR _ kind_intensity eInclusion OpGe lo I) (clause_cmp get_intensity CIntensity IZR _ kind_intensity eInclusion OpLe ((- n) mod 2 ^ 16) I)) as C.
    destruct (kept_points _ _ ps C W) as (kept & E & H1). exists kept. split; [exact E|]. intros p. rewrite H1.
    assert (X : (- n) mod 2 ^ 16 = if n =? 0 then 0 else 2 ^ 16 - n).
    { destruct (Z.eqb_spec n 0) as [->|]; [reflexivity|]. symmetry. apply (Z.mod_unique_pos _ _ (-1)); lia. }
    rewrite X. split.
    + intros (Q & (v & E1 & L1) & (v' & E2 & L2)). rewrite E1 in E2. apply Writer_Append.Ok_inj in E2. subst v'. split; [exact Q|]. exists v. split; [exact E1|].
      cbn [is_inclusion compared] in L1, L2. apply le_IZR in L1, L2. lia.
    + intros (Q & v & E1 & L1 & L2). split; [exact Q|]. split; exists v; (split; [exact E1|]); cbn [is_inclusion compared]; apply IZR_le; assumption.
  - destruct (Z.ltb_spec n (2 ^ 16)); [lia|]. reflexivity.
Qed.
Print Assumptions C73_negative_intensity_refuted.
(** --keep-scan-angle lo--n is accepted up to n = 2^31 and keeps nothing but, for
    "0--0", the angle 0. *)
Theorem C73_negative_upper_angle : forall lexd atof a b lo n, numeral a lo -> lo < 2 ^ 31 -> numeral b n ->
  (n <= 2 ^ 31 -> exists fs, get_filters lexd atof (keep_angle (a ++ [45; 45] ++ b)) = Ok fs /\
     forall ps, Forall usual_point ps -> exists kept, cfilter_points fs ps = Ok kept /\
       forall p, In p kept <-> In p ps /\ exists v, get_scan_angle p = Ok v /\ lo <= v <= - n) /\
  (2 ^ 31 < n -> get_filters lexd atof (keep_angle (a ++ [45; 45] ++ b)) = Throw EInvalidArgument).
Proof.
  intros lexd atof a b lo n Ha L Hb. rewrite only_angle, (keep_value_minus _ _ _ _ Ha), (make_angle_ok OpGe a lo eInclusion (conj Ha L)). cbn [obind].
  unfold make_angle. rewrite op_text_same, C32_expression by exact (minus_no_op b n Hb). rewrite (lex_signed_minus b n Hb). split; intros B.
  - destruct (Z.leb_spec n (2 ^ 31)); [|lia]. cbn [obind]. eexists. split; [reflexivity|]. intros ps W.
    pose proof (clause_app _ _ _ _ (clause_cmp get_scan_angle CAngle IZR _ kind_angle eInclusion OpGe lo I) (clause_cmp get_scan_angle CAngle IZR _ kind_angle eInclusion OpLe (- n) I)) as C.
    destruct (kept_points _ _ ps C W) as (kept & E & H1). exists kept. split; [exact E|]. intros p. rewrite H1. split.
    + intros (Q & (v & E1 & L1) & (v' & E2 & L2)). rewrite E1 in E2. apply Writer_Append.Ok_inj in E2. subst v'. split; [exact Q|]. exists v. split; [exact E1|].
      cbn [is_inclusion compared] in L1, L2. apply le_IZR in L1, L2. lia.
    + intros (Q & v & E1 & L1 & L2). split; [exact Q|]. split; exists v; (split; [exact E1|]); cbn [is_inclusion compared]; apply IZR_le; assumption.
  - destruct (Z.leb_spec n (2 ^ 31)); [lia|]. reflexivity.
Qed.
Print Assumptions C73_negative_upper_angle.
(** Non-trivial cases: "0--1", "5--70000" and "0--2147483648". *)
Theorem C73_negative_instance : numeral [48] 0 /\ numeral [49] 1 /\ numeral [55; 48; 48; 48; 48] 70000 /\ numeral [50; 49; 52; 55; 52; 56; 51; 54; 52; 56] 2147483648 /\
  Forall usual_point [class_point 5] /\ get_intensity (class_point 5) = Ok 0.
Proof.
  assert (D : forall d, 0 <= d <= 9 -> numeral [48 + d] d) by (intros; now constructor).
  assert (M : forall s v d w c, numeral s v -> 0 <= d <= 9 -> w = 10 * v + d -> c = 48 + d -> numeral (s ++ [c]) w) by (intros; subst; now constructor).
  split; [exact (D 0 ltac:(lia))|]. split; [exact (D 1 ltac:(lia))|]. split.
  { apply (M [55;48;48;48] 7000 0); [|lia|lia|lia]. apply (M [55;48;48] 700 0); [|lia|lia|lia]. apply (M [55;48] 70 0); [|lia|lia|lia]. apply (M [55] 7 0); [exact (D 7 ltac:(lia))|lia|lia|lia]. }
  split.
  { apply (M [50;49;52;55;52;56;51;54;52] 214748364 8); [|lia|lia|lia]. apply (M [50;49;52;55;52;56;51;54] 21474836 4); [|lia|lia|lia]. apply (M [50;49;52;55;52;56;51] 2147483 6); [|lia|lia|lia].
    apply (M [50;49;52;55;52;56] 214748 3); [|lia|lia|lia]. apply (M [50;49;52;55;52] 21474 8); [|lia|lia|lia]. apply (M [50;49;52;55] 2147 4); [|lia|lia|lia].
    apply (M [50;49;52] 214 7); [|lia|lia|lia]. apply (M [50;49] 21 4); [|lia|lia|lia]. apply (M [50] 2 1); [exact (D 2 ltac:(lia))|lia|lia|lia]. }
  split; [constructor; [apply usual_class; cbn; tauto|constructor]|vm_compute; reflexivity].
Qed.
Print Assumptions C73_negative_instance.

(** The numbers of a colour may be followed by anything: "12abc" is not reported
    but taken for 12, and a word for 0. *)
Definition loose (s : text) (v : Z) : Prop := s <> [] /\ Forall (fun c => c <> 44 /\ c <> 45) s /\
  exists blanks rest, s = blanks ++ rest /\ Forall (fun c => c = 32 \/ 9 <= c <= 13) blanks /\
   ((exists n junk, rest = n ++ junk /\ numeral n v /\ forall c j, junk = c :: j -> ~ (48 <= c <= 57)) \/
    (v = 0 /\ exists c j, rest = c :: j /\ ~ (48 <= c <= 57) /\ c <> 43 /\ c <> 32 /\ ~ (9 <= c <= 13))).
Lemma skip_blanks bl rest : Forall (fun c => c = 32 \/ 9 <= c <= 13) bl -> skip_blank (bl ++ rest) = skip_blank rest.
Proof.
  induction 1 as [|c bl H _ IH]; cbn [app skip_blank]; [reflexivity|]. replace (is_blank c) with true; [exact IH|].
  unfold is_blank. symmetry. rewrite orb_true_iff, andb_true_iff, !Z.leb_le, Z.eqb_eq. tauto.
Qed.
Lemma digit_none c : ~ (48 <= c <= 57) -> digit c = None.
Proof. intros H. unfold digit. destruct (Z.leb_spec 48 c); [|reflexivity]. destruct (Z.leb_spec c 57); [lia|reflexivity]. Qed.
Lemma prefix_junk s : forall a v, digits_from a s = Some v -> forall junk, (forall c j, junk = c :: j -> ~ (48 <= c <= 57)) -> digits_prefix a (s ++ junk) = v.
Proof.
  induction s as [|c s IH]; intros a v E junk J; cbn [digits_from app digits_prefix] in *.
  - apply (f_equal (fun o => match o with Some x => x | None => 0 end)) in E. cbn in E. subst v. destruct junk as [|c j]; [reflexivity|]. cbn [digits_prefix]. now rewrite digit_none by exact (J c j eq_refl).
  - destruct (digit c); [now apply IH|discriminate].
Qed.
Lemma not_blank c : ~ (9 <= c <= 13) -> c <> 32 -> is_blank c = false.
Proof. intros A B. unfold is_blank. destruct (Z.eqb_spec c 32); [congruence|]. destruct (Z.leb_spec 9 c); destruct (Z.leb_spec c 13); try reflexivity. lia. Qed.
Lemma atoi_loose s v : loose s v -> v < 2 ^ 31 -> atoi s = Ok v.
Proof.
  intros (_ & F & bl & rest & -> & B & C) L. apply Forall_app in F. destruct F as (_ & F). unfold atoi. rewrite (skip_blanks bl rest B). assert (P : 0 <= v).
  { destruct C as [(n & junk & _ & Hn & _)|(-> & _)]; [exact (proj1 (proj2 (numeral_chars _ _ Hn)))|lia]. }
  assert (X : match skip_blank rest with c :: r => if c =? 45 then - digits_prefix 0 r else if c =? 43 then digits_prefix 0 r else digits_prefix 0 (c :: r) | [] => 0 end = v).
  { destruct C as [(n & junk & -> & Hn & J)|(-> & c & j & -> & N & N1 & N2 & N3)].
    - pose proof (prefix_junk n 0 v (numeral_from n v Hn) junk J) as E. destruct (numeral_head n v Hn) as (c & r & -> & K).
      cbn [app skip_blank] in *. rewrite not_blank by lia. destruct (Z.eqb_spec c 45); [lia|]. destruct (Z.eqb_spec c 43); [lia|]. exact E.
    - cbn [skip_blank]. rewrite not_blank by assumption. destruct (Z.eqb_spec c 45) as [->|].
      + pose proof (Forall_inv F) as K. cbv beta in K. lia.
      + destruct (Z.eqb_spec c 43); [contradiction|]. cbn [digits_prefix]. now rewrite digit_none. }
  rewrite X. unfold in_signedb. change (32 - 1) with 31. replace ((- 2 ^ 31 <=? v) && (v <? 2 ^ 31)) with true; [reflexivity|].
  symmetry. rewrite andb_true_iff, Z.leb_le, Z.ltb_lt. lia.
Qed.
Definition loose_color (s : text) (c : color) : Prop :=
  exists r g b, loose r (c_red c) /\ loose g (c_green c) /\ loose b (c_blue c) /\ color_ok c /\ s = r ++ [44] ++ g ++ [44] ++ b.
Lemma loose_values s c : loose_color s c -> color_values (tokens [ch_comma] s) = Ok [c_red c; c_green c; c_blue c].
Proof.
  intros (r & g & b & Hr & Hg & Hb & (C1 & C2 & C3) & ->). unfold in_unsigned in *.
  assert (K : forall s v, loose s v -> s <> [] /\ Forall (fun c => existsb (Z.eqb c) [ch_comma] = false) s).
  { intros s v (N & F & _). split; [exact N|]. eapply Forall_impl; [|exact F]. cbn. intros a Ha. unfold ch_comma. destruct (Z.eqb_spec a 44); [lia|reflexivity]. }
  destruct (K _ _ Hr) as (Nr & Fr). destruct (K _ _ Hg) as (Ng & Fg). destruct (K _ _ Hb) as (Nb & Fb).
  change 44 with ch_comma. rewrite tokens_sep by (auto; reflexivity). rewrite tokens_sep by (auto; reflexivity). rewrite tokens_one by auto.
  cbn [color_values]. rewrite (atoi_loose r _ Hr), (atoi_loose g _ Hg), (atoi_loose b _ Hb) by lia. cbn [obind].
  assert (L : forall v, 0 <= v < 2 ^ 16 -> (v <? 0) || (65535 <? v) = false).
  { intros v Hv. destruct (Z.ltb_spec v 0); [lia|]. destruct (Z.ltb_spec 65535 v); [lia|reflexivity]. }
  rewrite !L by assumption. cbn [obind]. rewrite !Z.mod_small by lia. reflexivity.
Qed.
Lemma loose_chars s c : loose_color s c -> s <> [] /\ Forall (fun c => existsb (Z.eqb c) [ch_dash] = false) s.
Proof.
  intros (r & g & b & (Nr & Fr & _) & (_ & Fg & _) & (_ & Fb & _) & _ & ->).
  assert (D : forall s : text, Forall (fun c => c <> 44 /\ c <> 45) s -> Forall (fun c => existsb (Z.eqb c) [ch_dash] = false) s).
  { intros s F. eapply Forall_impl; [|exact F]. cbn. intros a Ha. unfold ch_dash. destruct (Z.eqb_spec a 45); [lia|reflexivity]. }
  split; [destruct r; [congruence|discriminate]|]. assert (C : Forall (fun c => existsb (Z.eqb c) [ch_dash] = false) [44]) by (constructor; [reflexivity|constructor]).
  apply Forall_app; split; [now apply D|]. apply Forall_app; split; [exact C|]. apply Forall_app; split; [now apply D|]. apply Forall_app; split; [exact C|now apply D].
Qed.
Theorem C73_loose_color_refuted : forall lexd atof lo hi a b, loose_color a lo -> loose_color b hi ->
  exists fs, get_filters lexd atof (keep_color (a ++ [45] ++ b)) = Ok fs /\
  forall ps, Forall usual_point ps -> exists kept, cfilter_points fs ps = Ok kept /\
    forall p, In p kept <-> In p ps /\ exists v, get_color p = Ok v /\ between_colors (lo, hi) v.
Proof.
  intros lexd atof lo hi a b Ha Hb. destruct (loose_chars _ _ Ha) as (Na & Fa). destruct (loose_chars _ _ Hb) as (Nb & Fb).
  eexists. split.
  { unfold get_filters, keep_color. cbn [o_drop_classes o_keep_classes o_keep_returns o_drop_returns o_extent o_keep_intensity o_drop_intensity o_keep_angle o_drop_angle
      o_keep_time o_drop_time o_keep_color o_drop_color o_thin o_last o_first o_valid opt obind andb Z.eqb]. unfold make_color. change 45 with ch_dash.
    rewrite tokens_sep by (auto; reflexivity). rewrite tokens_one by auto. cbn [colors_of]. rewrite (loose_values _ _ Ha), (loose_values _ _ Hb). cbn [obind].
    destruct Ha as (? & ? & ? & _ & _ & _ & Oa & _). destruct Hb as (? & ? & ? & _ & _ & _ & Ob & _).
    rewrite (color_make_id _ Oa), (color_make_id _ Ob). cbn [obind]. rewrite side_box_none by reflexivity. cbn [obind app snd]. reflexivity. }
  intros ps W. exact (kept_points _ _ ps (clause_color lo hi) W).
Qed.
Print Assumptions C73_loose_color_refuted.
(** " 12abc" and "red" *)
Theorem C73_loose_instance : loose [32; 49; 50; 97; 98; 99] 12 /\ loose [114; 101; 100] 0.
Proof.
  assert (F : forall l, forallb (fun c => negb (c =? 44) && negb (c =? 45)) l = true -> Forall (fun c => c <> 44 /\ c <> 45) l).
  { intros l H. apply Forall_forall. intros c Hc. rewrite forallb_forall in H. specialize (H c Hc). apply andb_prop in H as (A & B).
    destruct (Z.eqb_spec c 44); [discriminate|]. destruct (Z.eqb_spec c 45); [discriminate|]. auto. }
  split.
  - split; [discriminate|]. split; [apply F; reflexivity|]. exists [32], [49; 50; 97; 98; 99]. split; [reflexivity|]. split; [constructor; [now left|constructor]|]. left.
    exists [49; 50], [97; 98; 99]. split; [reflexivity|]. split.
    + change 12 with (10 * 1 + 2). apply (num_more [49] 1 2); [exact (num_digit 1 ltac:(lia))|lia].
    + intros c j E. apply (f_equal (hd 0)) in E. cbn in E. lia.
  - split; [discriminate|]. split; [apply F; reflexivity|]. exists [], [114; 101; 100]. split; [reflexivity|]. split; [constructor|]. right. split; [reflexivity|].
    exists 114, [101; 100]. repeat split; try lia; discriminate.
Qed.
Print Assumptions C73_loose_instance.

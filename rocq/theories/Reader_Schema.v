(** Re-adding dimensions and the "extra" dimension: what reading a header does
    to the record layout. *)
From Coq Require Import ZArith List Bool Lia String.
From Coq Require Import ZifyBool ZifyNat.
Import ListNotations.
From Verif Require Import Outcome Bytes Float64 CStr Vlr_Model Schema_Model Schema_Spec Schema_Api Schema_Proofs
  Header_Model Point_Model Stream_Model Reader_Model.
Local Open Scope Z_scope.

Lemma mi_replace_self c d : NoDup (map d_pos c) -> NoDup (map d_name c) -> In d c -> mi_replace c d = c.
Proof.
  intros Hp Hn Hd. unfold mi_replace.
  assert (Inj : forall x y : dim, In x c -> In y c -> d_name x = d_name y -> x = y).
  { clear Hp Hd. induction c as [|a c IH]; cbn [In map] in *; [tauto|]. inversion Hn; subst.
    intros x y [->|Hx] [->|Hy] E; auto.
    - exfalso. apply H1. rewrite E. now apply in_map.
    - exfalso. apply H1. rewrite <- E. now apply in_map. }
  assert (InjP : forall x y : dim, In x c -> In y c -> d_pos x = d_pos y -> x = y).
  { clear Hn Hd Inj. induction c as [|a c IH]; cbn [In map] in *; [tauto|]. inversion Hp; subst.
    intros x y [->|Hx] [->|Hy] E; auto.
    - exfalso. apply H1. rewrite E. now apply in_map.
    - exfalso. apply H1. rewrite <- E. now apply in_map. }
  match goal with |- context [existsb ?f c] => destruct (existsb f c) eqn:E end.
  - reflexivity.
  - rewrite <- (map_id c) at 2. apply map_ext_in. intros x Hx.
    destruct (String.eqb_spec (d_name x) (d_name d)); [|reflexivity]. symmetry. now apply Inj.
Qed.

Lemma sorted_nodup_pos l : sorted l -> NoDup (map d_pos l).
Proof.
  induction 1 as [|x l Hs IH Hf]; cbn [map]; constructor; [|exact IH].
  intros H. apply in_map_iff in H as (y & E & Hy). rewrite Forall_forall in Hf. specialize (Hf y Hy). unfold pos_lt in Hf. lia.
Qed.

Lemma sinv_add_self k s fs d : 0 <= k -> k + 100 < 2 ^ 30 -> sinv k s fs -> In d (s_dims s) ->
  sinv (k + 1) (add_dimension s d) fs /\ s_format (add_dimension s d) = s_format s.
Proof.
  intros Hk Hk2 (np & ds & Es & Hs & Hb & Hnp & Ef & Hn & Hpre & Hfmt & Hlen) Hd.
  assert (C : Forall2 same_core (calc_loop 0 0 ds) ds) by apply calc_loop_same.
  assert (Sc : sorted (calc_loop 0 0 ds)) by (eapply F2_sorted; [exact C|exact Hs]).
  assert (Nc : map d_name (calc_loop 0 0 ds) = map d_name ds) by (apply F2_map; [intros a b Hab; apply Hab|exact C]).
  assert (Enames : map f_name fs = map d_name ds) by (rewrite <- Ef; apply names_map).
  assert (ND : NoDup (map d_name (calc_loop 0 0 ds))) by (now rewrite Nc, <- Enames).
  assert (E1 : s_dims s = calc_loop 0 0 ds) by (rewrite Es; reflexivity).
  assert (A : add_dimension s d = canon (s_format s) (np + 1) ds).
  { unfold add_dimension. rewrite E1 in *.
    rewrite (find_name_in _ (d_name d) d ND Hd eq_refl).
    rewrite mi_replace_self by (auto using sorted_nodup_pos).
    rewrite calculate_sizes_canon by (cbn [s_dims]; exact Sc). cbn [s_format s_nextpos s_dims].
    rewrite (canon_core _ _ _ ds) by exact C. f_equal. rewrite Es. cbn [canon s_nextpos]. apply Z.mod_small. lia. }
  rewrite A. cbn [canon s_format]. split; [|reflexivity].
  exists (np + 1), ds. cbn [canon s_format]. split; [reflexivity|]. split; [exact Hs|].
  split. { eapply Forall_impl; [|exact Hb]. cbv beta. intros; lia. }
  split; [lia|]. split; [exact Ef|]. split; [exact Hn|]. split; [exact Hpre|]. split; [exact Hfmt|lia].
Qed.

Lemma sinv_has k s fs n : sinv k s fs -> In n (map f_name fs) -> exists d, get_dimension s n = Some d /\ In d (s_dims s).
Proof.
  intros (np & ds & Es & Hs & Hb & Hnp & Ef & Hn & Hpre & Hfmt & Hlen) Hin.
  assert (C : Forall2 same_core (calc_loop 0 0 ds) ds) by apply calc_loop_same.
  assert (Nc : map d_name (calc_loop 0 0 ds) = map d_name ds) by (apply F2_map; [intros a b Hab; apply Hab|exact C]).
  assert (Enames : map f_name fs = map d_name ds) by (rewrite <- Ef; apply names_map).
  assert (E1 : s_dims s = calc_loop 0 0 ds) by (rewrite Es; reflexivity).
  rewrite Enames, <- Nc in Hin. apply in_map_iff in Hin as (d & Ed & Hd).
  exists d. unfold get_dimension. rewrite E1. split; [|exact Hd]. apply find_name_in; auto. now rewrite Nc, <- Enames.
Qed.

Lemma prefix_xyz fmt fs : std_prefix fmt fs ->
  In "X"%string (map f_name fs) /\ In "Y"%string (map f_name fs) /\ In "Z"%string (map f_name fs).
Proof.
  intros (cs & -> & _). rewrite map_app. repeat split; apply in_or_app; left; cbn; tauto.
Qed.
Lemma sinv_prefix k s fs : sinv k s fs -> std_prefix (s_format s) fs /\ 0 <= s_format s <= 3 /\ NoDup (map f_name fs).
Proof. intros (np & ds & Es & Hs & Hb & Hnp & Ef & Hn & Hpre & Hfmt & Hlen). auto. Qed.

(** Header::SetSchema of a standard-prefixed layout keeps the layout. *)
Lemma set_schema_sinv h k s fs : 0 <= k -> k + 200 < 2 ^ 30 -> sinv k s fs ->
  exists s', set_schema h s = Ok (h_upd_schema h s') /\ sinv (k + 3) s' fs /\ s_format s' = s_format s.
Proof.
  intros Hk Hk2 Hi. unfold set_schema.
  destruct (sinv_prefix _ _ _ Hi) as (Hpre & _). destruct (prefix_xyz _ _ Hpre) as (HX & HY & HZ).
  destruct (sinv_has _ _ _ _ Hi HX) as (x & Gx & Ix). rewrite Gx.
  destruct (sinv_add_self k s fs x Hk ltac:(lia) Hi Ix) as (Hi1 & F1).
  destruct (sinv_has _ _ _ _ Hi1 HY) as (y & Gy & Iy). rewrite Gy.
  destruct (sinv_add_self (k + 1) _ fs y ltac:(lia) ltac:(lia) Hi1 Iy) as (Hi2 & F2).
  destruct (sinv_has _ _ _ _ Hi2 HZ) as (z & Gz & Iz). rewrite Gz.
  destruct (sinv_add_self (k + 1 + 1) _ fs z ltac:(lia) ltac:(lia) Hi2 Iz) as (Hi3 & F3).
  eexists. split; [reflexivity|]. replace (k + 3) with (k + 1 + 1 + 1) by lia. split; [exact Hi3|congruence].
Qed.

(** ** record length *)
Lemma sinv_bytes k s fs : sinv k s fs -> schema_bytes s = (total_bits fs mod 2 ^ 64) / 8.
Proof. intros H. destruct (sinv_shows _ _ _ H) as (_ & _ & E & _). unfold schema_bytes. now rewrite E. Qed.

Definition extra_fields (fmt rl : Z) : list field :=
  if std_length fmt =? rl then [] else [mkField "extra" (((rl - std_length fmt) * 8) mod 2 ^ 64) false].

Lemma std_total fmt : 0 <= fmt <= 3 -> total_bits (std_fields fmt) = 8 * std_length fmt.
Proof. intros H. assert (E : fmt = 0 \/ fmt = 1 \/ fmt = 2 \/ fmt = 3) by lia. destruct E as [E|[E|[E|E]]]; subst; reflexivity. Qed.
Lemma std_length_small fmt : 20 <= std_length fmt <= 34.
Proof. unfold std_length. destruct (fmt =? 0), (fmt =? 1), (fmt =? 2); lia. Qed.

Lemma extra_total fmt rl : 0 <= fmt <= 3 -> 0 <= rl < 2 ^ 16 ->
  (total_bits (std_fields fmt ++ extra_fields fmt rl) mod 2 ^ 64) / 8 = rl.
Proof.
  intros Hf Hr. rewrite total_bits_app, std_total by assumption. unfold extra_fields. pose proof (std_length_small fmt).
  destruct (Z.eqb_spec (std_length fmt) rl) as [E|E].
  - cbn [total_bits fold_right]. rewrite E, Z.add_0_r, Z.mod_small by lia. rewrite Z.mul_comm, Z.div_mul by lia. reflexivity.
  - cbn [total_bits fold_right f_bits]. rewrite Z.add_0_r, Zplus_mod_idemp_r.
    replace (8 * std_length fmt + (rl - std_length fmt) * 8) with (rl * 8) by lia.
    rewrite Z.mod_small by lia. now rewrite Z.div_mul by lia.
Qed.

Lemma extra_bits_ok fmt rl : 0 <= rl < 2 ^ 16 -> std_length fmt <> rl ->
  let b := ((rl - std_length fmt) * 8) mod 2 ^ 64 in 0 < b /\ b mod 8 = 0.
Proof.
  intros Hr Hne. cbv zeta. pose proof (std_length_small fmt) as HS.
  pose proof (Z.mod_pos_bound ((rl - std_length fmt) * 8) (2 ^ 64) ltac:(lia)).
  split.
  - destruct (Z.eq_dec (((rl - std_length fmt) * 8) mod 2 ^ 64) 0) as [E|E]; [|lia].
    destruct (Z.lt_ge_cases rl (std_length fmt)).
    + rewrite <- (Z.mod_add _ 1) in E by lia. rewrite Z.mod_small in E by lia. lia.
    + rewrite Z.mod_small in E by lia. lia.
  - change (2 ^ 64) with (8 * 2 ^ 61). rewrite Z.rem_mul_r by lia.
    rewrite (Z.mul_comm 8), Z.mod_add by lia. rewrite Z.mod_mod by lia.
    apply Z.mod_mul. lia.
Qed.

(** the layout after set_format: standard fields, then what was custom before *)
Lemma set_fmt_sinv k s fs f : 0 <= k -> k + 100 < 2 ^ 30 -> sinv k s fs -> 0 <= f <= 3 ->
  exists s', set_format s f = (s', Ok tt) /\ sinv (k + 1) s' (std_fields f ++ custom_fields fs) /\ s_format s' = f.
Proof.
  intros Hk Hk2 Hi Hf. destruct (sinv_step k s fs (SOFormat f) Hk Hk2 Hi Hf) as (s' & R & Hi' & F & _).
  cbn [sop_run] in R. destruct (set_format s f) as [s1 [[]|e|u]]; cbn in R; try discriminate. inversion R; subst.
  exists s'. split; [reflexivity|]. split; [exact Hi'|]. now apply F.
Qed.

Lemma set_format_bad s f : f <> 0 -> f <> 1 -> f <> 2 -> f <> 3 -> exists s', set_format s f = (s', Throw ERuntime).
Proof.
  intros H0 H1 H2 H3. unfold set_format, update_required.
  destruct (Z.eqb_spec f 3); [lia|]. destruct (Z.eqb_spec f 2); [lia|].
  destruct (Z.eqb_spec f 1); [lia|]. destruct (Z.eqb_spec f 0); [lia|]. eexists. reflexivity.
Qed.

(** the "extra" dimension *)
Definition as_extra (b : Z) : dim := mkDim "extra" b false true true false false 0 0 0.
Lemma sinv_add_extra k s fs b : 0 <= k -> k + 100 < 2 ^ 30 -> sinv k s fs -> 0 < b -> b mod 8 = 0 ->
  ~ In "extra"%string (map f_name fs) ->
  sinv (k + 1) (add_dimension s (as_extra b)) (fs ++ [mkField "extra" b false]) /\
  s_format (add_dimension s (as_extra b)) = s_format s.
Proof.
  intros Hk Hk2 (np & ds & Es & Hs & Hb & Hnp & Ef & Hn & (cs & Ecs & Hcs) & Hfmt & Hlen) Hb0 Hb8 Hfresh.
  assert (C : Forall2 same_core (calc_loop 0 0 ds) ds) by apply calc_loop_same.
  assert (Sc : sorted (calc_loop 0 0 ds)) by (eapply F2_sorted; [exact C|exact Hs]).
  assert (Bc : bounded np (calc_loop 0 0 ds)).
  { unfold bounded in *. clear - C Hb. induction C as [|a b l m Hab Hr IH]; [constructor|].
    inversion Hb; subst. constructor; [|auto]. assert (d_pos a = d_pos b) by apply Hab. lia. }
  assert (Nc : map d_name (calc_loop 0 0 ds) = map d_name ds) by (apply F2_map; [intros x y Hab; apply Hab|exact C]).
  assert (Enames : map f_name fs = map d_name ds) by (rewrite <- Ef; apply names_map).
  rewrite Es at 1 2. rewrite add_dimension_fresh; cbn [canon s_dims s_nextpos s_format as_extra d_name]; auto;
    [|rewrite Nc, <- Enames; exact Hfresh].
  rewrite (canon_core _ _ _ (ds ++ [dim_set_pos (as_extra b) np])) by (now apply F2_refl_app).
  rewrite Z.mod_small by lia. split; [|reflexivity].
  exists (np + 1), (ds ++ [dim_set_pos (as_extra b) np]). cbn [canon s_format].
  split; [reflexivity|]. split; [apply sorted_snoc; [exact Hs|exact Hb]|].
  split. { apply Forall_app. split; [eapply Forall_impl; [|exact Hb]; cbv beta; intros; lia|constructor; [cbn; lia|constructor]]. }
  split; [lia|]. split. { rewrite map_app, Ef. reflexivity. }
  split. { rewrite map_app. cbn [map f_name].
    apply (Permutation.Permutation_NoDup (l := "extra"%string :: map f_name fs)); [apply Permutation.Permutation_cons_append|constructor; assumption]. }
  split. { exists (cs ++ [mkField "extra" b false]). rewrite Ecs, <- app_assoc. split; [reflexivity|].
    apply Forall_app. split; [exact Hcs|]. constructor; [|constructor]. cbn. repeat split; auto. intuition discriminate. }
  split; [exact Hfmt|]. rewrite app_length. cbn [List.length]. lia.
Qed.

(** ReadHeader's last step, from the standard layout or from an earlier reading
    of the same file *)
Lemma add_extra_sinv h k f rl fs : 0 <= k -> k + 300 < 2 ^ 30 -> 0 <= f <= 3 -> 0 <= rl < 2 ^ 16 ->
  sinv k (h_schema h) fs -> s_format (h_schema h) = f ->
  fs = std_fields f \/ fs = std_fields f ++ extra_fields f rl ->
  exists s', add_extra h rl = Ok (h_upd_schema h s') /\ sinv (k + 4) s' (std_fields f ++ extra_fields f rl) /\ s_format s' = f.
Proof.
  intros Hk Hk2 Hf Hr Hi EF Hfs.
  assert (K4 : forall s g, sinv k s g -> sinv (k + 4) s g).
  { intros s g (np & ds & R1 & R2 & R3 & R4 & R5 & R6 & R7 & R8 & R9). exists np, ds. repeat (split; [assumption|lia] || (split; [assumption|])); try lia.
    split; [lia|]. repeat (split; [assumption|]). lia. }
  unfold add_extra, get_record_length. rewrite (sinv_bytes _ _ _ Hi).
  pose proof (std_length_small f) as HS.
  assert (Same : fs = std_fields f ++ extra_fields f rl ->
    exists s', Ok h = Ok (h_upd_schema h s') /\ sinv (k + 4) s' (std_fields f ++ extra_fields f rl) /\ s_format s' = f).
  { intros E. exists (h_schema h). split; [destruct h; reflexivity|]. rewrite <- E. auto. }
  destruct (Z.eq_dec (std_length f) rl) as [E|E].
  - assert (EX : extra_fields f rl = []) by (unfold extra_fields; rewrite E, Z.eqb_refl; reflexivity).
    rewrite EX, app_nil_r in *.
    assert (E2 : fs = std_fields f) by tauto. rewrite E2, std_total, E by assumption.
    rewrite (Z.mod_small (8 * rl)) by lia. rewrite Z.mul_comm, Z.div_mul, Z.mod_small, Z.eqb_refl by lia. auto.
  - destruct Hfs as [E2|E2].
    + rewrite E2, std_total by assumption.
      rewrite (Z.mod_small (8 * _)) by lia. rewrite Z.mul_comm, Z.div_mul, Z.mod_small by lia.
      destruct (Z.eqb_spec (std_length f) rl); [contradiction|].
      destruct (extra_bits_ok f rl Hr E) as (B0 & B8).
      unfold dim_new. destruct (Z.eqb_spec (((rl - std_length f) * 8) mod 2 ^ 64) 0) as [Z0|_]; [rewrite Z0 in B0; lia|].
      cbn [obind d_name d_bits d_signed d_pos d_byteoff d_bitoff]. fold (as_extra (((rl - std_length f) * 8) mod 2 ^ 64)).
      set (b := ((rl - std_length f) * 8) mod 2 ^ 64) in *.
      assert (NI : ~ In "extra"%string (map f_name fs)).
      { rewrite E2. unfold std_fields. destruct (_ || _), (_ || _); cbn; intuition discriminate. }
      destruct (sinv_add_extra k _ fs b Hk ltac:(lia) Hi B0 B8 NI) as (Hi1 & F1).
      destruct (set_schema_sinv h (k + 1) _ _ ltac:(lia) ltac:(lia) Hi1) as (s' & R & Hi2 & F2).
      exists s'. split; [exact R|]. replace (k + 4) with (k + 1 + 3) by lia.
      assert (EX : extra_fields f rl = [mkField "extra" b false]).
      { unfold extra_fields. destruct (Z.eqb_spec (std_length f) rl); [contradiction|reflexivity]. }
      rewrite EX, <- E2. split; [exact Hi2|congruence].
    + rewrite E2, extra_total by assumption. rewrite Z.mod_small, Z.eqb_refl by lia. auto.
Qed.

(** Proofs about las2txt. *)
From Coq Require Import ZArith List Bool Lia Lra String Ascii Reals.
From Coq Require Import ZifyBool ZifyNat.
Import ListNotations.
From Flocq Require Import Core BinarySingleNaN Binary Bits.
From Verif Require Import Outcome Bytes Float64 Float64_Proofs Classif_Model Schema_Model Header_Model Vlr_Model Point_Model Point_Spec Point_Api Point_Proofs Coord_Api Coord_Header Stream_Model Stream_Proofs IO_Spec
  Reader_Model Reader_Spec Reader_Api Reader_Open Reader_Hist Iter_Proofs Cols_Spec Cols_Proofs Txt_Model Txt_Spec.
Local Open Scope Z_scope.
Local Notation length := List.length (only parsing).

(** ** digits *)
Lemma digit_code d : 0 <= d < 10 -> nat_of_ascii (digit d) = (48 + Z.to_nat d)%nat.
Proof. intros H. unfold digit. rewrite nat_ascii_embedding; lia. Qed.
Lemma digit_is d : 0 <= d < 10 -> is_digit (digit d) = true.
Proof. intros H. unfold is_digit. rewrite digit_code by exact H. lia. Qed.
Lemma digit_val d : 0 <= d < 10 -> digit_value (digit d) = d.
Proof. intros H. unfold digit_value. rewrite digit_code by exact H. lia. Qed.
Definition val (n : Z) (t : text) : Z := fold_left (fun n c => 10 * n + digit_value c) t n.
Lemma digits_ok fuel : forall n, 0 <= n < 2 ^ Z.of_nat fuel -> (0 < fuel)%nat ->
  forallb is_digit (digits fuel n) = true /\ val 0 (digits fuel n) = n /\ digits fuel n <> [].
Proof.
  induction fuel as [|fuel IH]; intros n H L; [lia|]. cbn [digits].
  pose proof (Z.mod_pos_bound n 10 ltac:(lia)) as M. pose proof (Z.div_mod n 10 ltac:(lia)) as D.
  unfold val in *. rewrite forallb_app, fold_left_app. cbn [forallb fold_left]. rewrite digit_is, digit_val by lia.
  split; [|split; [|intros X; apply app_eq_nil in X; destruct X; discriminate]].
  - destruct (Z.ltb_spec n 10); [reflexivity|]. 
    assert (P : 2 ^ Z.of_nat (S fuel) = 2 * 2 ^ Z.of_nat fuel) by (rewrite Nat2Z.inj_succ, Z.pow_succ_r; lia).
    assert (R : 0 <= n / 10 < 2 ^ Z.of_nat fuel) by lia.
    assert (0 < fuel)%nat. { destruct fuel; [|lia]. change (2 ^ Z.of_nat 0) with 1 in R. lia. }
    destruct (IH (n / 10) R H1) as (A & _). now rewrite A.
  - destruct (Z.ltb_spec n 10); [cbn; lia|].
    assert (P : 2 ^ Z.of_nat (S fuel) = 2 * 2 ^ Z.of_nat fuel) by (rewrite Nat2Z.inj_succ, Z.pow_succ_r; lia).
    assert (R : 0 <= n / 10 < 2 ^ Z.of_nat fuel) by lia.
    assert (0 < fuel)%nat. { destruct fuel; [|lia]. change (2 ^ Z.of_nat 0) with 1 in R. lia. }
    destruct (IH (n / 10) R H1) as (_ & A & _). rewrite A. lia.
Qed.
Lemma nat_text_ok n : 0 <= n -> forallb is_digit (nat_text n) = true /\ val 0 (nat_text n) = n /\ nat_text n <> [].
Proof.
  intros H. apply digits_ok; [|lia]. destruct (Z.eq_dec n 0) as [->|N]; [cbn; lia|].
  pose proof (Z.log2_nonneg n). rewrite Nat2Z.inj_succ, Z2Nat.id by lia. pose proof (Z.log2_spec n ltac:(lia)). lia.
Qed.
Lemma padded_ok k : forall n a, 0 <= n < 10 ^ Z.of_nat k ->
  forallb is_digit (padded k n) = true /\ val a (padded k n) = a * 10 ^ Z.of_nat k + n /\ length (padded k n) = k.
Proof.
  induction k as [|k IH]; intros n a H.
  - change (10 ^ Z.of_nat 0) with 1 in *. cbn. split; [reflexivity|]. split; [lia|reflexivity].
  - cbn [padded]. pose proof (Z.mod_pos_bound n 10 ltac:(lia)) as M. pose proof (Z.div_mod n 10 ltac:(lia)) as D.
    assert (P : 10 ^ Z.of_nat (S k) = 10 * 10 ^ Z.of_nat k) by (rewrite Nat2Z.inj_succ, Z.pow_succ_r; lia).
    destruct (IH (n / 10) a ltac:(lia)) as (A & B & C). unfold val in *.
    rewrite forallb_app, fold_left_app, app_length, A, B, C. cbn [forallb fold_left List.length]. rewrite digit_is, digit_val by lia.
    split; [reflexivity|]. split; [|lia]. rewrite P. lia.
Qed.

(** ** separators *)
Lemma split_none c t : ~ In c t -> split_on c t = [t].
Proof.
  induction t as [|x t IH]; intros H; [reflexivity|]. cbn [split_on]. rewrite IH by (intros X; apply H; now right).
  destruct (Ascii.eqb_spec x c) as [E|N]; [exfalso; apply H; now left|reflexivity].
Qed.
Lemma split_first c a b : ~ In c a -> split_on c (a ++ c :: b) = a :: split_on c b.
Proof.
  induction a as [|x a IH]; intros H; cbn [split_on app].
  - now rewrite Ascii.eqb_refl.
  - rewrite IH by (intros X; apply H; now right). destruct (Ascii.eqb_spec x c) as [E|N]; [exfalso; apply H; now left|reflexivity].
Qed.
Lemma digits_no c t : forallb is_digit t = true -> is_digit c = false -> ~ In c t.
Proof. intros H N I. rewrite forallb_forall in H. rewrite (H _ I) in N. discriminate. Qed.
Lemma whole_is t : forallb is_digit t = true -> t <> [] -> whole t = Some (val 0 t).
Proof. intros H N. unfold whole. rewrite H. destruct t; [congruence|reflexivity]. Qed.

(** ** numbers *)
Lemma plain_digits t : forallb is_digit t = true -> t <> [] -> plain_number t = Some (val 0 t, O).
Proof.
  intros H N. unfold plain_number. rewrite (split_none "."%char t) by (apply digits_no; [exact H|reflexivity]). now rewrite whole_is.
Qed.
Lemma number_plain t : match t with [] => False | c :: _ => is_digit c = true end -> number t = plain_number t.
Proof.
  intros H. unfold number. destruct t as [|c t]; [contradiction|].
  destruct c as [[|] [|] [|] [|] [|] [|] [|] [|]]; try reflexivity; discriminate H.
Qed.
Lemma digits_head t : forallb is_digit t = true -> t <> [] -> match t with [] => False | c :: _ => is_digit c = true end.
Proof. destruct t; [congruence|]. cbn. intros H _. apply andb_prop in H. apply H. Qed.
Lemma head_app (a b : text) : match a with [] => False | c :: _ => is_digit c = true end -> match a ++ b with [] => False | c :: _ => is_digit c = true end.
Proof. destruct a; [contradiction|auto]. Qed.
Lemma int_number z : number (int_text z) = Some (z, O).
Proof.
  unfold int_text. destruct (Z.ltb_spec z 0) as [L|L].
  - destruct (nat_text_ok (- z) ltac:(lia)) as (A & B & C). cbn [number]. rewrite plain_digits, B by assumption. do 2 f_equal. lia.
  - destruct (nat_text_ok z L) as (A & B & C). rewrite number_plain by (apply digits_head; assumption). rewrite plain_digits, B by assumption. reflexivity.
Qed.
Lemma decimal_plain p n : 0 <= n -> plain_number (decimal_text p n) = Some (n, p) /\
  match decimal_text p n with [] => False | c :: _ => is_digit c = true end.
Proof.
  intros H. unfold decimal_text.
  assert (P : 0 < 10 ^ Z.of_nat p) by (apply Z.pow_pos_nonneg; lia).
  pose proof (Z.mod_pos_bound n _ P) as M. pose proof (Z.div_mod n (10 ^ Z.of_nat p) ltac:(lia)) as D.
  destruct (nat_text_ok (n / 10 ^ Z.of_nat p)) as (A & B & C). { apply Z.div_pos; lia. }
  split.
  - destruct p as [|p].
    + rewrite app_nil_r, plain_digits, B by assumption. change (10 ^ Z.of_nat 0) with 1. now rewrite Z.div_1_r.
    + destruct (padded_ok (S p) (n mod 10 ^ Z.of_nat (S p)) (n / 10 ^ Z.of_nat (S p)) M) as (A1 & B1 & C1).
      remember (padded (S p) (n mod 10 ^ Z.of_nat (S p))) as f eqn:Ef. clear Ef.
      unfold plain_number. rewrite split_first by (apply digits_no; [exact A|reflexivity]). rewrite (split_none _ f) by (apply digits_no; [exact A1|reflexivity]).
      assert (NF : f <> []) by (intros X; subst f; discriminate C1).
      rewrite (whole_is _ A C), (whole_is f A1 NF). rewrite whole_is.
      * unfold val in *. rewrite fold_left_app, B, B1, C1. do 2 f_equal. lia.
      * now rewrite forallb_app, A, A1.
      * intros X. apply app_eq_nil in X. now destruct X.
  - apply head_app, digits_head; assumption.
Qed.
Lemma signed_number s p n : 0 <= n -> number (sign_text s ++ decimal_text p n) = Some (if s then - n else n, p).
Proof.
  intros H. destruct (decimal_plain p n H) as (A & B). destruct s; cbn [sign_text app].
  - cbn [number]. now rewrite A.
  - now rewrite number_plain.
Qed.

(** ** nearest decimals *)
Lemma half_even_err n d : 0 < d -> 2 * Z.abs (half_even n d * d - n) <= d.
Proof.
  intros H. unfold half_even. pose proof (Z.mod_pos_bound n d H) as M. pose proof (Z.div_mod n d ltac:(lia)) as D.
  destruct (Z.ltb_spec (2 * (n mod d)) d); [nia|]. destruct (Z.ltb_spec d (2 * (n mod d))); [nia|]. destruct (Z.even (n / d)); nia.
Qed.
Lemma half_even_pos n d : 0 < d -> 0 <= n -> 0 <= half_even n d.
Proof.
  intros H N. unfold half_even. pose proof (Z.div_pos n d N H). destruct (_ <? _); [lia|]. destruct (_ <? _); [lia|]. destruct (Z.even _); lia.
Qed.
Lemma pow10_R p : IZR (10 ^ Z.of_nat p) = (10 ^ p)%R.
Proof. rewrite <- pow_IZR. reflexivity. Qed.
Lemma units_ok p m e : 0 <= m -> 0 <= units p m e /\ (Rabs (IZR (units p m e) - IZR m * bpow radix2 e * 10 ^ p) <= / 2)%R.
Proof.
  intros M. assert (P : 0 < 10 ^ Z.of_nat p) by (apply Z.pow_pos_nonneg; lia). unfold units. destruct (Z.leb_spec 0 e) as [L|L].
  - assert (0 < 2 ^ e) by (apply Z.pow_pos_nonneg; lia). split; [nia|]. rewrite !mult_IZR, pow10_R. rewrite (IZR_Zpower radix2) by exact L.
    replace (IZR m * 10 ^ p * bpow radix2 e - IZR m * bpow radix2 e * 10 ^ p)%R with 0%R by ring. rewrite Rabs_R0. lra.
  - assert (D : 0 < 2 ^ (- e)) by (apply Z.pow_pos_nonneg; lia). set (n := m * 10 ^ Z.of_nat p). set (d := 2 ^ (- e)) in *.
    split; [apply half_even_pos; [exact D|unfold n; nia]|].
    pose proof (half_even_err n d D) as E. set (q := half_even n d) in *. clearbody q.
    assert (Dr : IZR d = bpow radix2 (- e)) by (unfold d; apply (IZR_Zpower radix2); lia).
    assert (D0 : (0 < IZR d)%R) by now apply IZR_lt.
    apply IZR_le in E. rewrite mult_IZR, abs_IZR, minus_IZR, mult_IZR in E.
    assert (X : (IZR m * bpow radix2 e * 10 ^ p = IZR n / IZR d)%R).
    { unfold n. rewrite mult_IZR, pow10_R, Dr, bpow_opp. field. apply Rgt_not_eq, bpow_gt_0. }
    rewrite X. replace (IZR q - IZR n / IZR d)%R with ((IZR q * IZR d - IZR n) * / IZR d)%R by (field; lra).
    rewrite Rabs_mult, Rabs_inv. rewrite (Rabs_pos_eq (IZR d)) by lra. apply Rmult_le_reg_r with (IZR d); [exact D0|]. rewrite Rmult_assoc, Rinv_l by lra. lra.
Qed.
Lemma fixed_number p x : f64_fin x = true -> exists m, number (fixed_text p x) = Some (m, p) /\ nearest_decimal p (f64_R x) m.
Proof.
  intros Fx. unfold nearest_decimal. destruct x as [s|s|s pl H|s m e H]; try discriminate Fx; cbn [fixed_text].
  - exists 0. split; [rewrite signed_number by lia; destruct s; reflexivity|]. cbn [f64_R B2R]. rewrite Rmult_0_l, Rminus_0_r, Rabs_R0. lra.
  - destruct (units_ok p (Zpos m) e ltac:(lia)) as (A & B). exists (if s then - units p (Zpos m) e else units p (Zpos m) e).
    split; [apply signed_number; exact A|]. unfold f64_R. cbn [B2R]. unfold F2R. cbn [Fnum Fexp]. destruct s; cbn [cond_Zopp].
    + rewrite !opp_IZR. replace (- IZR (units p (Zpos m) e) - - IZR (Zpos m) * bpow radix2 e * 10 ^ p)%R
        with (- (IZR (units p (Zpos m) e) - IZR (Zpos m) * bpow radix2 e * 10 ^ p))%R by ring. rewrite Rabs_Ropp. exact B.
    + exact B.
Qed.

(** ** Letters *)
Lemma class_get_mod f : class_get f = f mod 32.
Proof.
  unfold class_get. change (class_table_size - 1) with (Z.ones 5). rewrite Z.land_ones by lia. change (2 ^ 5) with 32.
  apply Z.mod_small. pose proof (Z.mod_pos_bound f 32 ltac:(lia)). lia.
Qed.
Lemma class_name_ok i : 0 <= i < 32 -> nth (Z.to_nat i) class_names EmptyString = class_name i.
Proof.
  intros H. assert (L : In i (map Z.of_nat (seq 0 32))) by (apply in_map_iff; exists (Z.to_nat i); split; [lia|apply in_seq; lia]).
  clear H. cbn [seq map Z.of_nat] in L. repeat (destruct L as [L|L]; [subst i; reflexivity|]). contradiction.
Qed.
Definition text_letters : text := list_ascii_of_string "xyztXYZiarncCuRGBMped".
Lemma letter_unknown F pr i rec h c : ~ In c text_letters -> letter_text pr i (mkPoint rec h) c = Ok [] /\ prints F pr i rec c [].
Proof.
  intros H. destruct pr as [[[px py] pz] pt].
  assert (N : c <> "C"%char) by (intros ->; apply H; unfold text_letters; cbn [list_ascii_of_string In]; tauto).
  unfold prints. replace (Ascii.eqb c "C"%char) with false by (symmetry; now apply Ascii.eqb_neq).
  unfold text_letters in H. cbn [list_ascii_of_string In] in H.
  destruct c as [[|] [|] [|] [|] [|] [|] [|] [|]]; try (split; reflexivity); exfalso; apply H; tauto.
Qed.
Lemma letter_ok F pr i rec h c : of_file F h rec -> exists t, letter_text pr i (mkPoint rec h) c = Ok t /\ prints F pr i rec c t.
Proof.
  intros H. destruct (in_dec ascii_dec c text_letters) as [K|K]; [|exists []; now apply letter_unknown].
  destruct pr as [[[px py] pz] pt].
  assert (FC : forall a, (exists s w, attr_range (u_at F 104 1) a = Some (s, w, false)) -> api_get a (mkPoint rec h) = Ok (field (fmt F) a rec)).
  { intros a (s & w & E). destruct (field_is F h rec a H ltac:(congruence)) as (s' & w' & sg & E' & ->). rewrite E in E'. injection E' as <- <- <-. reflexivity. }
  assert (NT : forall v, exists t, (let! x := Ok v in Ok (int_text x)) = Ok t /\ number t = Some (v, O)).
  { intros v. exists (int_text v). split; [reflexivity|apply int_number]. }
  assert (XT : forall ax p, exists t, (let! v := get_coord ax (mkPoint rec h) in Ok (fixed_text p v)) = Ok t /\
    (f64_fin (coordinate F ax rec) = true -> exists m, number t = Some (m, p) /\ nearest_decimal p (f64_R (coordinate F ax rec)) m)).
  { intros ax p. rewrite (coord_is F h rec ax H). exists (fixed_text p (coordinate F ax rec)). split; [reflexivity|apply fixed_number]. }
  assert (CC : forall a (g : color -> Z), is_color a = true -> (forall p, api_get a p = omap g (get_color p)) -> g color_black = 0 ->
    exists t, (let! c := get_color (mkPoint rec h) in Ok (int_text (g c))) = Ok t /\ number t = Some (field (fmt F) a rec, O)).
  { intros a g C G B. destruct (attr_range (u_at F 104 1) a) as [r|] eqn:E.
    - assert (Q : exists s w, attr_range (u_at F 104 1) a = Some (s, w, false)).
      { clear - E C. destruct a; try discriminate C; cbn [attr_range] in *; repeat destruct (_ =? _); eauto; discriminate. }
      pose proof (FC a Q) as X. rewrite G in X. destruct (get_color (mkPoint rec h)) as [cc|e|u]; try discriminate X. cbn [omap] in X.
      apply Writer_Append.Ok_inj in X. cbn [obind]. rewrite X. eexists. split; [reflexivity|apply int_number].
    - pose proof H as (W & FM & S). destruct (color_absent _ W) as (_ & T).
      { unfold p_format. cbn [p_hdr]. rewrite FM. clear - E C. destruct a; try discriminate C; cbn [attr_range] in *; repeat destruct (_ =? _); congruence. }
      rewrite T. cbn [obind]. rewrite B. eexists. split; [reflexivity|]. rewrite int_number. unfold field, fmt. now rewrite E. }
  assert (CL : get_classification (mkPoint rec h) = Ok (field (fmt F) AClassification rec)).
  { pose proof (FC AClassification ltac:(eexists _, _; reflexivity)) as X. cbn [api_get] in X. exact X. }
  unfold text_letters in K. cbn [list_ascii_of_string In] in K.
  repeat match goal with K : _ \/ _ |- _ => destruct K as [K|K] end; try contradiction; subst c; cbn [letter_text]; unfold prints; cbn [whole_letter real_letter decimals].
  - apply (XT AxX px).
  - apply (XT AxY py).
  - apply (XT AxZ pz).
  - assert (T : get_time (mkPoint rec h) = Ok (f64_of_bits (field (fmt F) ATime rec))).
    { pose proof (time_cell F h rec H) as TC. unfold Cols_Model.double_cell in TC. destruct (get_time (mkPoint rec h)) as [v|e|u] eqn:E; try discriminate TC. f_equal.
      destruct (attr_range (u_at F 104 1) ATime) as [r|] eqn:R.
      - pose proof (FC ATime) as X. cbn [api_get] in X. rewrite E in X. cbn [obind omap] in X.
        assert (Q : exists s w, attr_range (u_at F 104 1) ATime = Some (s, w, false)) by (clear - R; cbn [attr_range] in *; destruct (_ || _); [eauto|discriminate]).
        specialize (X Q). apply Writer_Append.Ok_inj in X. rewrite <- X. symmetry. apply f64_of_bits_bits.
      - pose proof H as (W & FM & _). destruct (time_absent _ W) as (_ & T). { unfold p_format. cbn [p_hdr]. now rewrite FM. }
        rewrite T in E. apply Writer_Append.Ok_inj in E. subst v. unfold field, fmt. rewrite R. vm_compute. reflexivity. }
    rewrite T. cbn [obind]. eexists. split; [reflexivity|apply fixed_number].
  - pose proof (raw_is F h rec AxX H) as R. cbn [raw_attr api_get] in R. rewrite R. apply NT.
  - pose proof (raw_is F h rec AxY H) as R. cbn [raw_attr api_get] in R. rewrite R. apply NT.
  - pose proof (raw_is F h rec AxZ H) as R. cbn [raw_attr api_get] in R. rewrite R. apply NT.
  - pose proof (FC AIntensity ltac:(eexists _, _; reflexivity)) as R. cbn [api_get] in R. rewrite R. apply NT.
  - pose proof H as (W & _). pose proof (api_get_spec _ AScanAngleRank 128 8 true W eq_refl) as R. cbn [api_get] in R. rewrite R. apply NT.
  - pose proof (FC AReturnNumber ltac:(eexists _, _; reflexivity)) as R. cbn [api_get] in R. rewrite R. apply NT.
  - pose proof (FC ANumberOfReturns ltac:(eexists _, _; reflexivity)) as R. cbn [api_get] in R. rewrite R. apply NT.
  - rewrite CL. cbn [obind]. rewrite class_get_mod. apply (NT (field (fmt F) AClassification rec mod 32)).
  - rewrite CL. cbn [obind]. unfold class_name_index. rewrite class_get_mod. pose proof (Z.mod_pos_bound (field (fmt F) AClassification rec) 32 ltac:(lia)) as M.
    assert (CK : check_class_index (field (fmt F) AClassification rec mod 32) = true) by (unfold check_class_index, class_table_size; lia).
    rewrite CK. cbn [obind]. rewrite class_name_ok by exact M. eexists. split; reflexivity.
  - pose proof (FC AUserData ltac:(eexists _, _; reflexivity)) as R. cbn [api_get] in R. rewrite R. apply NT.
  - apply (CC ARed c_red); reflexivity.
  - apply (CC AGreen c_green); reflexivity.
  - apply (CC ABlue c_blue); reflexivity.
  - exists (int_text i). split; [reflexivity|apply int_number].
  - pose proof (FC APointSourceId ltac:(eexists _, _; reflexivity)) as R. cbn [api_get] in R. rewrite R. apply NT.
  - pose proof (FC AFlightLineEdge ltac:(eexists _, _; reflexivity)) as R. cbn [api_get] in R. rewrite R. apply NT.
  - pose proof (FC AScanDirection ltac:(eexists _, _; reflexivity)) as R. cbn [api_get] in R. rewrite R. apply NT.
Qed.

(** the characters of numbers *)
Definition number_chars : text := list_ascii_of_string "0123456789.-infa".
Lemma digit_in n : 0 <= n < 10 -> In (digit n) number_chars.
Proof.
  intros H. assert (L : In n (map Z.of_nat (seq 0 10))) by (apply in_map_iff; exists (Z.to_nat n); split; [lia|apply in_seq; lia]).
  cbn [seq map Z.of_nat] in L. repeat (destruct L as [L|L]; [subst n; vm_compute; tauto|]). contradiction.
Qed.
Definition over (t : text) : Prop := Forall (fun c => In c number_chars) t.
Lemma digits_over fuel : forall n, over (digits fuel n).
Proof.
  induction fuel as [|k IH]; intros n; [constructor|]. cbn [digits]. apply Forall_app. split; [destruct (n <? 10); [constructor|apply IH]|].
  constructor; [|constructor]. apply digit_in. apply Z.mod_pos_bound. lia.
Qed.
Lemma padded_over k : forall n, over (padded k n).
Proof.
  induction k as [|k IH]; intros n; [constructor|]. cbn [padded]. apply Forall_app. split; [apply IH|]. constructor; [|constructor]. apply digit_in, Z.mod_pos_bound. lia.
Qed.
Lemma int_over z : over (int_text z).
Proof. unfold int_text. destruct (z <? 0); [constructor; [vm_compute; tauto|]|]; apply digits_over. Qed.
Lemma sign_over s : over (sign_text s).
Proof. destruct s; [constructor; [vm_compute; tauto|]|]; constructor. Qed.
Lemma fixed_over p x : over (fixed_text p x).
Proof.
  assert (D : forall n, over (decimal_text p n)).
  { intros n. unfold decimal_text. apply Forall_app. split; [apply digits_over|]. destruct p; [constructor|]. constructor; [vm_compute; tauto|apply padded_over]. }
  destruct x; cbn [fixed_text]; apply Forall_app; (split; [apply sign_over|]); try apply D;
    repeat (apply Forall_cons; [vm_compute; tauto|]); apply Forall_nil.
Qed.
Lemma letter_over pr i p c t : c <> "C"%char -> letter_text pr i p c = Ok t -> over t.
Proof.
  intros N. destruct pr as [[[px py] pz] pt].
  assert (I : forall v : outcome Z, (let! v := v in Ok (int_text v)) = Ok t -> over t).
  { intros [v|e|u] E; try discriminate E. apply Writer_Append.Ok_inj in E. subst t. apply int_over. }
  assert (D : forall q (v : outcome f64), (let! v := v in Ok (fixed_text q v)) = Ok t -> over t).
  { intros q [v|e|u] E; try discriminate E. apply Writer_Append.Ok_inj in E. subst t. apply fixed_over. }
  assert (CO : forall g, (let! c := get_color p in Ok (int_text (g c))) = Ok t -> over t).
  { intros g. destruct (get_color p) as [v|e|u]; intros E; try discriminate E. apply Writer_Append.Ok_inj in E. subst t. apply int_over. }
  assert (Z0 : Ok [] = Ok t -> over t) by (intros E; apply Writer_Append.Ok_inj in E; subst t; constructor).
  destruct (in_dec ascii_dec c text_letters) as [K|K].
  - unfold text_letters in K. cbn [list_ascii_of_string In] in K.
    repeat match goal with K : _ \/ _ |- _ => destruct K as [K|K] end; try contradiction; subst c; try congruence; cbn [letter_text]; eauto.
    intros E. apply Writer_Append.Ok_inj in E. subst t. apply int_over.
  - destruct p as [pd ph]. destruct (letter_unknown [] (px, py, pz, pt) i pd ph c K) as (E & _). rewrite E. exact Z0.
Qed.
Definition good (F : list Z) (pr : precisions) (i : Z) (rec : list Z) (c : ascii) (t : text) : Prop :=
  prints F pr i rec c t /\ (c <> "C"%char -> over t).
Lemma letter_good F pr i rec h c : of_file F h rec -> exists t, letter_text pr i (mkPoint rec h) c = Ok t /\ good F pr i rec c t.
Proof. intros H. destruct (letter_ok F pr i rec h c H) as (t & E & P). exists t. split; [exact E|]. split; [exact P|]. intros N. eapply letter_over; eassumption. Qed.

(** ** Lines *)
Lemma row_ok (f : ascii -> outcome text) (Q : ascii -> text -> Prop) d parse : parse <> [] -> (forall c, exists t, f c = Ok t /\ Q c t) ->
  exists row, row_text f d parse = Ok (line d row) /\ Forall2 Q parse row.
Proof.
  intros N H. destruct parse as [|c rest]; [congruence|]. clear N. cbn [row_text]. revert c. induction rest as [|c1 rest IH]; intros c; cbn [letters_text].
  - destruct (H c) as (t & -> & QT). exists [t]. split; [reflexivity|]. repeat constructor. exact QT.
  - destruct (H c) as (t & -> & QT). destruct (IH c1) as (row & E & FA). cbn [obind]. rewrite E. cbn [obind]. exists (t :: row). split; [|constructor; assumption].
    f_equal. unfold line. inversion FA; subst. cbn [join]. now rewrite <- !app_assoc.
Qed.
Lemma color_known F h rec : of_file F h rec -> exists c, get_color (mkPoint rec h) = Ok c.
Proof.
  intros H. destruct (letter_ok F (0,0,0,0)%nat 0 rec h "R"%char H) as (t & E & _). cbn [letter_text] in E.
  destruct (get_color (mkPoint rec h)) as [c|e|u]; [eauto|discriminate E|discriminate E].
Qed.
Lemma point_string_ok F h rec pr i d parse : of_file F h rec -> parse <> [] ->
  exists row, point_string parse d pr i (mkPoint rec h) = Ok (line d row) /\ Forall2 (good F pr i rec) parse row.
Proof.
  intros H N. unfold point_string. destruct (color_known F h rec H) as (c & ->). cbn [obind]. apply row_ok; [exact N|]. intros c'. now apply letter_good.
Qed.

(** ** The loop, by what the reader delivers *)
Lemma write_loop F h keep parse d pr : parse <> [] -> forall fuel r recs r1 i, r_hdr r = h -> read_all keep fuel r tt = Ok (recs, true, r1, tt) ->
  Forall (of_file F h) recs -> Z.of_nat i + Z.of_nat (length recs) < 2 ^ 32 ->
  exists rows, write_points keep parse d pr fuel r (Z.of_nat i) = Ok (List.concat (map (line d) rows)) /\ length rows = length recs /\
    forall k rec row, nth_error recs k = Some rec -> nth_error rows k = Some row -> Forall2 (good F pr (Z.of_nat (i + k)) rec) parse row.
Proof.
  intros N. induction fuel as [|fuel IH]; intros r recs r1 i Hh E OF B; [discriminate E|]. cbn [read_all write_points] in *.
  destruct (reader_next keep no_transform r tt) as [[r2 u] a] eqn:X. pose proof (Las2las_Loop.next_hdr _ _ _ _ _ _ _ X) as H2. destruct u.
  destruct a as [[|]|e|w]; try discriminate.
  - destruct (read_all keep fuel r2 tt) as [[[[l0 b] r3] fs3]|e|w] eqn:R; try discriminate. cbn [obind] in E. apply Writer_Append.Ok_inj in E.
    apply pair_equal_spec in E. destruct E as [E E4]. apply pair_equal_spec in E. destruct E as [E E3]. apply pair_equal_spec in E. destruct E as [E1 E2]. subst recs b r3 fs3.
    apply Forall_cons_iff in OF. destruct OF as [O1 OF]. cbn [List.length] in B.
    change (r_point r2) with (mkPoint (r_data r2) (r_hdr r2)). rewrite H2, Hh.
    destruct (point_string_ok F h (r_data r2) pr (Z.of_nat i) d parse O1 N) as (row & ER & FA). rewrite ER. cbn [obind].
    replace ((Z.of_nat i + 1) mod 2 ^ 32) with (Z.of_nat (S i)) by (rewrite Z.mod_small; lia).
    destruct (IH r2 l0 r1 (S i) ltac:(congruence) R OF ltac:(lia)) as (rows & EW & LR & T). rewrite EW. cbn [obind].
    exists (row :: rows). split; [reflexivity|]. split; [cbn [List.length]; lia|]. intros [|k] rec rw N1 N2; cbn [nth_error] in N1, N2.
    + injection N1 as <-. injection N2 as <-. now rewrite Nat.add_0_r.
    + replace (i + S k)%nat with (S i + k)%nat by lia. now apply T.
  - apply Writer_Append.Ok_inj in E. apply (f_equal (fun x => fst (fst (fst x)))) in E. cbn [fst] in E. subst recs.
    exists []. split; [reflexivity|]. split; [reflexivity|]. intros [|k] rec row N1; discriminate N1.
Qed.

(** ** Splitting a text again *)
Lemma split_lines rows d : (forall row, In row rows -> ~ In newline (join d row)) ->
  split_on newline (List.concat (map (line d) rows)) = map (join d) rows ++ [[]].
Proof.
  induction rows as [|row rows IH]; intros H; [reflexivity|]. cbn [map List.concat]. unfold line at 1. rewrite <- app_assoc. cbn [app].
  change (ascii_of_nat 10) with newline. rewrite split_first by (apply H; now left). rewrite IH by (intros r I; apply H; now right). reflexivity.
Qed.
Lemma split_join c row : row <> [] -> (forall t, In t row -> ~ In c t) -> split_on c (join [c] row) = row.
Proof.
  induction row as [|t row IH]; intros N H; [congruence|]. destruct row as [|t1 row]; [cbn [join]; apply split_none, H; now left|].
  change (join [c] (t :: t1 :: row)) with (t ++ c :: join [c] (t1 :: row)). rewrite split_first by (apply H; now left). f_equal. apply IH; [discriminate|].
  intros x I. apply H. now right.
Qed.
Lemma join_in c d row : In c (join [d] row) -> c = d \/ exists t, In t row /\ In c t.
Proof.
  induction row as [|t row IH]; [contradiction|]. destruct row as [|t1 row]; [cbn [join]; intros I; right; exists t; split; [now left|exact I]|].
  change (join [d] (t :: t1 :: row)) with (t ++ d :: join [d] (t1 :: row)). intros I. apply in_app_or in I. destruct I as [I|[I|I]].
  - right. exists t. split; [now left|exact I].
  - left. now symmetry.
  - destruct (IH I) as [E|(x & I1 & I2)]; [now left|]. right. exists x. split; [now right|exact I2].
Qed.

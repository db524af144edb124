(** txt2las: the two passes. *)
From Coq Require Import ZArith List Bool String Ascii Lia Reals Lra.
Import ListNotations.
From Flocq Require Import Core BinarySingleNaN Binary Bits.
From Verif Require Import Outcome Bytes CStr Float64 Float64_Proofs Classif_Model Schema_Model Header_Model Vlr_Model Point_Model Point_Spec Point_Api Point_Proofs Stream_Model Writer_Model IO_Spec Writer_Api Writer_Append
  Coord_Api Bounds_Proofs Coord_Proofs Coord_Header Cols_Spec Txt_Spec Txt_Proofs Txt2las_Model Txt2las_Spec Txt2las_Text Txt2las_Fields Txt2las_Point Txt2las_Head.
Local Open Scope list_scope.
Local Open Scope Z_scope.
Local Notation length := List.length (only parsing).

(** ** The letters of the first pass *)
Lemma strip_ok (l : text) : (exists c, In c l /\ c <> "s"%char) -> exists pl k, strip (rev l) = Ok pl /\ l = pl ++ repeat "s"%char k.
Proof.
  induction l as [|c l IH] using rev_ind; intros (x & X & N); [destruct X|]. rewrite rev_app_distr. cbn [rev app strip].
  destruct (Ascii.eqb_spec c "s"%char) as [->|C].
  - destruct IH as (pl & k & E & P). { exists x. apply in_app_or in X. destruct X as [X|[<-|[]]]; [auto|contradiction]. }
    exists pl, (S k). split; [exact E|]. rewrite P at 1. rewrite <- app_assoc. f_equal. change ["s"%char] with (repeat "s"%char 1). rewrite <- repeat_app. f_equal. lia.
  - exists (l ++ [c]), O. split; [|cbn [repeat]; now rewrite app_nil_r]. cbn [rev]. now rewrite rev_involutive.
Qed.
Lemma forall2_prefix {A B} (R : A -> B -> Prop) (a1 a2 : list A) : forall l, Forall2 R (a1 ++ a2) l -> exists l1 l2, l = l1 ++ l2 /\ Forall2 R a1 l1 /\ Forall2 R a2 l2.
Proof. intros l H. apply Forall2_app_inv_l in H. destruct H as (l1 & l2 & H1 & H2 & ->). exists l1, l2. auto. Qed.
Lemma last_app c p1 : forall r1 p2 r2, Forall2 (fun _ _ => True) p1 r1 -> last_text c (p1 ++ p2) (r1 ++ r2) = match last_text c p2 r2 with Some u => Some u | None => last_text c p1 r1 end.
Proof.
  induction p1 as [|a p1 IH]; intros r1 p2 r2 F; inversion F as [|? t ? r1' ? F']; subst; cbn [app last_text]; [destruct (last_text c p2 r2); reflexivity|].
  rewrite IH by exact F'. destruct (last_text c p2 r2); reflexivity.
Qed.
Lemma last_none c k : c <> "s"%char -> forall row, last_text c (repeat "s"%char k) row = None.
Proof.
  intros N. induction k as [|k IH]; intros row; [reflexivity|]. cbn [repeat]. destruct row as [|t row]; [reflexivity|]. cbn [last_text]. rewrite IH.
  destruct (Ascii.eqb_spec "s"%char c); [congruence|reflexivity].
Qed.
Lemma less_last c p : In c ["x"; "y"; "z"; "r"]%char -> forall row, last_text c (map less p) row = last_text c p row.
Proof.
  intros I. induction p as [|a p IH]; intros [|t row]; try reflexivity. cbn [map last_text]. rewrite IH. destruct (last_text c p row); [reflexivity|].
  unfold less. destruct (existsb (Ascii.eqb a) ["x"; "y"; "z"; "r"]%char) eqn:E; [reflexivity|].
  destruct (Ascii.eqb_spec a c) as [->|N].
  - exfalso. assert (T : existsb (Ascii.eqb c) ["x"; "y"; "z"; "r"]%char = true); [|congruence]. apply existsb_exists. exists c. split; [exact I|apply Ascii.eqb_refl].
  - destruct (Ascii.eqb_spec "s"%char c) as [<-|]; [|reflexivity]. cbn in I. intuition congruence.
Qed.
Lemma less_takes c t : takes c t -> takes (less c) t.
Proof.
  intros T. unfold less. destruct (existsb (Ascii.eqb c) ["x"; "y"; "z"; "r"]%char); [exact T|]. unfold takes. cbn [stored_letter]. right. split; [reflexivity|]. exact (takes_cell c t T).
Qed.
Lemma takes_true p row : Forall2 takes p row -> Forall2 (fun _ _ => True) p row.
Proof. induction 1; constructor; auto. Qed.
Lemma less_row p row : Forall2 takes p row -> Forall2 takes (map less p) row.
Proof. induction 1; constructor; [now apply less_takes|assumption]. Qed.
Lemma cells_of p row : Forall2 takes p row -> Forall cell_text row.
Proof. induction 1 as [|a b l l' T F IH]; constructor; [exact (takes_cell a b T)|exact IH]. Qed.
(** the columns of a row the first pass looks at *)
Lemma first_columns p row : In "x"%char p -> Forall2 takes p row ->
  exists pl r1 r2, parse_less p = Ok pl /\ row = r1 ++ r2 /\ Forall2 takes pl r1 /\ Forall cell_text r2 /\
    (forall c, In c ["x"; "y"; "z"; "r"]%char -> last_text c pl r1 = last_text c p row).
Proof.
  intros X F. destruct (strip_ok (map less p)) as (pl & k & E & P).
  { exists "x"%char. split; [|discriminate]. apply in_map_iff. exists "x"%char. split; [reflexivity|exact X]. }
  pose proof (less_row p row F) as FL. rewrite P in FL. destruct (forall2_prefix takes pl _ row FL) as (r1 & r2 & -> & F1 & F2).
  exists pl, r1, r2. split; [exact E|]. split; [reflexivity|]. split; [exact F1|]. split; [exact (cells_of _ _ F2)|].
  intros c Hc. rewrite <- (less_last c p Hc), P. rewrite last_app by exact (takes_true _ _ F1). rewrite last_none; [reflexivity|]. cbn in Hc. intuition congruence.
Qed.
Lemma parse_less_fun p pl pl' : parse_less p = Ok pl -> parse_less p = Ok pl' -> pl = pl'.
Proof. congruence. Qed.

(** ** What the scanners need, from what fits *)
Lemma fits_takes scale offset c t : scaling_fits scale offset -> column_fits scale offset c t -> takes c t.
Proof.
  intros SF. unfold column_fits, takes. destruct (double_letter c) as [ax|] eqn:D.
  - intros (x & DX & B). assert (N : stored_letter c = None /\ In c ["x"; "y"; "z"; "t"]%char) by (apply double_cases in D; cbn in D; destruct D as [D|[D|[D|[]]]]; injection D as <- _; cbn; auto).
    destruct N as (-> & I). left. split; [exact I|]. exists x. split; [exact DX|]. destruct (SF ax) as ((_ & _ & S2) & _ & O).
    apply Rle_trans with (1125902054326270 * Rabs (f64_R (axis_of scale ax)))%R.
    + replace x with ((x - f64_R (axis_of offset ax)) + f64_R (axis_of offset ax))%R by ring. eapply Rle_trans; [apply Rabs_triang|]. lra.
    + apply Rle_trans with (bpow radix2 51 * bpow radix2 900)%R; [|rewrite <- bpow_plus; apply bpow_le; lia].
      apply Rmult_le_compat; [lra|apply Rabs_pos| |exact S2]. change (bpow radix2 51) with 2251799813685248%R. lra.
  - destruct (stored_letter c) as [[[a lo] hi]|]; [auto|]. intros [(-> & X)|X]; [|now right]. left. split; [cbn; tauto|exact X].
Qed.
Lemma fits_row scale offset p row : scaling_fits scale offset -> Forall2 (column_fits scale offset) p row -> Forall2 takes p row.
Proof. intros SF. induction 1; constructor; [eapply fits_takes; eassumption|assumption]. Qed.
Lemma last_in c p row : In c p -> Forall2 (fun _ _ => True) p row -> exists t, last_text c p row = Some t.
Proof.
  intros I F. induction F as [|a t p row _ F IH]; [destruct I|]. cbn [last_text]. destruct (last_text c p row) as [u|] eqn:E; [eauto|].
  destruct I as [->|I]; [rewrite Ascii.eqb_refl; eauto|]. destruct (IH I) as (u & U). discriminate.
Qed.
Lemma last_fits (R : ascii -> text -> Prop) c p row t : Forall2 R p row -> last_text c p row = Some t -> R c t.
Proof.
  intros F. induction F as [|a u p row H F IH]; [discriminate|]. cbn [last_text]. destruct (last_text c p row) as [w|]; [intros E; apply IH; exact E|].
  destruct (Ascii.eqb_spec a c) as [->|]; [intros E; injection E as <-; exact H|discriminate].
Qed.
Lemma last_not c p row : ~ In c p -> last_text c p row = None.
Proof.
  revert row. induction p as [|a p IH]; intros [|t row] N; try reflexivity. cbn [last_text]. rewrite IH by (intros X; apply N; now right).
  destruct (Ascii.eqb_spec a c) as [->|]; [exfalso; apply N; now left|reflexivity].
Qed.

Definition axis_char (ax : axis) : ascii := match ax with AxX => "x" | AxY => "y" | AxZ => "z" end%char.
Lemma axis_char_double ax : double_letter (axis_char ax) = Some ax. Proof. destruct ax; reflexivity. Qed.
(** the number of the coordinate column *)
Lemma axis_number scale offset p row ax : Forall2 (column_fits scale offset) p row -> In (axis_char ax) p ->
  exists t x, last_text (axis_char ax) p row = Some t /\ decimal t = Some x /\ (Rabs (x - f64_R (axis_of offset ax)) <= 2147483646 * Rabs (f64_R (axis_of scale ax)))%R.
Proof.
  intros F I. destruct (last_in _ p row I) as (t & L). { clear - F. induction F; constructor; auto. }
  pose proof (last_fits _ _ _ _ _ F L) as C. unfold column_fits in C. rewrite axis_char_double in C. destruct C as (x & D & B). exists t, x. auto.
Qed.

Definition ret (p : text) (row : list text) : Z := match last_text "r"%char p row with Some t => numv t | None => 0 end.
Lemma ret_range p row : Forall2 takes p row -> 0 <= ret p row < 8.
Proof.
  intros F. unfold ret. destruct (last_text "r"%char p row) as [t|] eqn:E; [|lia]. pose proof (last_fits _ _ _ _ _ F E) as T. unfold takes in T. cbn [stored_letter] in T.
  destruct T as (n & N & B). unfold numv. rewrite N. lia.
Qed.

Section RUN.
Variables (lf flt : text -> option f64).
Hypothesis (RD : reads_doubles lf) (RF : reads_floats flt).
Variables (scale offset : f64x3) (p d : text).
Hypothesis (SF : scaling_fits scale offset) (DL : delimiter d) (HX : forall ax, In (axis_char ax) p).

Definition row_fits (row : list text) : Prop := Forall2 (column_fits scale offset) p row.
Lemma row_nonempty row : row_fits row -> row <> [].
Proof. intros F ->. inversion F as [E|]. specialize (HX AxX). rewrite <- E in HX. destruct HX. Qed.

(** ** The first pass *)
Definition near3 (v : f64x3) : Prop := forall ax, near (axis_of scale ax) (axis_of offset ax) (axis_of v ax).
Definition stats_ok (acc : option stats) (n : Z) (hist : list Z) : Prop :=
  match acc with None => n = 0 /\ hist = repeat 0 8 | Some a => t_n a = n /\ near3 (t_min a) /\ near3 (t_max a) /\ t_hist a = hist end.
Lemma real_near row ax v : row_fits row -> (exists t, last_text (axis_char ax) p row = Some t /\ is_real t v) -> near (axis_of scale ax) (axis_of offset ax) v.
Proof.
  intros F (t & L & x & D & Fv & Rv). destruct (axis_number _ _ p row ax F (HX ax)) as (t' & x' & L' & D' & B). rewrite L in L'. injection L' as <-. rewrite D in D'. injection D' as <-.
  split; [exact Fv|]. destruct (SF ax) as (S1 & S2 & S3). exact (proj1 (in_range _ _ v x S1 S2 S3 B Rv)).
Qed.
Lemma near_min m v : near3 m -> near3 v -> near3 (map2_3 upd_min m v).
Proof. intros A B ax. specialize (A ax). specialize (B ax). destruct ax; cbn [axis_of map2_3 fst snd]; unfold upd_min; destruct (f64_lt _ _); assumption. Qed.
Lemma near_max m x v : near3 x -> near3 v -> near3 (upd_max3 m x v).
Proof. intros A B ax. specialize (A ax). specialize (B ax). destruct ax; cbn [axis_of upd_max3 fst snd]; unfold upd_max; destruct (f64_lt _ _); [|destruct (f64_lt _ _)| |destruct (f64_lt _ _)| |destruct (f64_lt _ _)]; assumption. Qed.
Definition hist_of (rows : list (list text)) (h : list Z) : list Z := fold_left (fun h row => count_return h (ret p row)) rows h.

Lemma pass1_row dh pl row xyz t : plain dh -> parse_less p = Ok pl -> row_fits row ->
  exists s, parse lf flt pl (line d row) xyz t (point_new dh) = Ok (true, s) /\ near3 (s_xyz s) /\ get_return_number (s_pt s) = Ok (ret p row).
Proof.
  intros Hp E F. destruct (first_columns p row (HX AxX) (fits_row _ _ _ _ SF F)) as (pl' & r1 & r2 & E' & -> & F1 & C2 & LT). rewrite E in E'. injection E' as <-.
  destruct (parse_ok lf flt RD RF dh d pl r1 r2 xyz t (fun _ _ => True) Hp DL F1 C2 (row_nonempty _ F) (fun _ _ => I)) as (s & PE & FI & RL).
  exists s. split; [exact PE|]. split.
  - intros ax. apply (real_near (r1 ++ r2)); [exact F|]. destruct (axis_number _ _ p (r1 ++ r2) ax F (HX ax)) as (tx & x & L & D & B). exists tx. split; [exact L|].
    assert (I1 : In (axis_char ax) ["x"; "y"; "z"; "t"]%char /\ In (axis_char ax) ["x"; "y"; "z"; "r"]%char) by (destruct ax; cbn; tauto). destruct I1 as (I1 & I2).
    specialize (RL _ I1). unfold afterP in RL. rewrite (LT _ I2), L in RL. destruct ax; exact RL.
  - destruct FI as (_ & _ & _ & V). specialize (V "r"%char AReturnNumber 0 7 eq_refl ltac:(discriminate)). cbn [api_get] in V. rewrite V. f_equal. unfold afterm, ret. rewrite LT by (cbn; tauto). reflexivity.
Qed.
Lemma pass1_ok dh pl : plain dh -> parse_less p = Ok pl -> forall rows xyz t acc n hist, Forall row_fits rows -> stats_ok acc n hist -> 0 <= n -> n + Z.of_nat (length rows) < 2 ^ 32 ->
  exists acc' xyz' t', pass1 lf flt dh pl (map (line d) rows) xyz t acc = Ok (acc', xyz', t') /\ stats_ok acc' (n + Z.of_nat (length rows)) (hist_of rows hist) /\ (rows <> [] -> acc' <> None).
Proof.
  intros Hp E. induction rows as [|row rows IH]; intros xyz t acc n hist F SO N0 NB.
  - exists acc, xyz, t. split; [reflexivity|]. split; [|intros X; contradiction]. cbn [List.length]. rewrite Z.add_0_r. exact SO.
  - inversion F as [|? ? F1 F2]; subst. cbn [map pass1]. destruct (pass1_row dh pl row xyz t Hp E F1) as (s & -> & NX & GR). cbn [obind]. cbv zeta. rewrite GR. cbn [obind].
    cbn [List.length] in NB.
    match goal with |- context [pass1 _ _ _ _ _ _ _ (Some ?a)] => set (a1 := a) end.
    assert (SO1 : stats_ok (Some a1) (n + 1) (count_return hist (ret p row))).
    { unfold a1. destruct acc as [a|]; cbn [stats_ok] in SO |- *.
      - destruct SO as (Q1 & Q2 & Q3 & Q4). cbn [t_n t_min t_max t_hist]. rewrite Q1, Q4, Z.mod_small by lia. split; [reflexivity|]. split; [apply near_min; assumption|]. split; [apply near_max; assumption|reflexivity].
      - destruct SO as (-> & ->). cbn [t_n t_min t_max t_hist]. auto. }
    destruct (IH (s_xyz s) (s_time s) (Some a1) (n + 1) _ F2 SO1 ltac:(lia) ltac:(lia)) as (acc' & xyz' & t' & P & SO' & NN).
    exists acc', xyz', t'. split; [exact P|]. split; [|].
    + cbn [List.length hist_of fold_left]. replace (n + Z.of_nat (S (length rows))) with (n + 1 + Z.of_nat (length rows)) by lia. exact SO'.
    + intros _. destruct rows as [|r2 rows]; [|apply NN; discriminate]. cbn [map pass1] in P. apply Ok_inj in P. apply (f_equal (fun z => fst (fst z))) in P. cbn [fst] in P. subst acc'. discriminate.
Qed.

(** ** The second pass *)
Definition row_point (h : header) (row : list text) (q : point) : Prop :=
  filled h (Z.to_nat (get_record_length h)) (afterm (fun _ => 0) p row) q /\
  (forall ax, exists t x k, last_text (axis_char ax) p row = Some t /\ decimal t = Some x /\ api_get (raw_attr ax) q = Ok k /\ stored_coordinate (axis_of scale ax) (axis_of offset ax) x k) /\
  (attr_range (get_format h) ATime <> None -> forall t, last_text "t"%char p row = Some t -> exists v, is_real t v /\ api_get ATime q = Ok (f64_bits v)).
Lemma zsum_zeros n : zsum (repeat 0 n) = 0.
Proof. induction n as [|n IH]; [reflexivity|]. cbn [repeat zsum]. first [exact IH | rewrite IH; reflexivity]. Qed.
Lemma new_header dh h : set_header (point_new dh) h = Ok (point_new h).
Proof. unfold set_header. cbn [point_new p_data]. rewrite zsum_zeros. reflexivity. Qed.
Lemma pass2_row dh h row xyz t : plain h -> h_scale h = scale -> h_offset h = offset -> row_fits row ->
  exists s q, parse lf flt p (line d row) xyz t (point_new h) = Ok (true, s) /\ row_point h row q /\
    forall (K : point -> outcome (option (writer * bool))),
    (let v := s_xyz s in let q := s_pt s in
     let! q := quiet q (set_x q (x_of v)) in let! q := quiet q (set_y q (y_of v)) in let! q := quiet q (set_z q (z_of v)) in
     let! q := quiet q (set_time q (s_time s)) in K q) = K q /\ set_header (point_new dh) h = Ok (point_new h).
Proof.
  intros Hp ES EO F. pose proof (fits_row _ _ _ _ SF F) as TK.
  destruct (parse_ok lf flt RD RF h d p row [] xyz t (fun _ _ => True) Hp DL TK (Forall_nil _)) as (s & PE & FI & RL); [rewrite app_nil_r; exact (row_nonempty _ F)|auto|].
  rewrite app_nil_r in PE. set (v := s_xyz s) in *.
  assert (AX : forall ax, exists tx x, last_text (axis_char ax) p row = Some tx /\ decimal tx = Some x /\ (Rabs (x - f64_R (offset_of ax h)) <= 2147483646 * Rabs (f64_R (scale_of ax h)))%R /\
    f64_fin (axis_of v ax) = true /\ f64_R (axis_of v ax) = nearest_double x).
  { intros ax. destruct (axis_number _ _ p row ax F (HX ax)) as (tx & x & L & D & B). exists tx, x. split; [exact L|]. split; [exact D|]. unfold scale_of, offset_of. rewrite ES, EO. split; [exact B|].
    assert (I1 : In (axis_char ax) ["x"; "y"; "z"; "t"]%char) by (destruct ax; cbn; tauto). specialize (RL _ I1). unfold afterP in RL. rewrite L in RL.
    assert (R : is_real tx (axis_of v ax)) by (destruct ax; exact RL). destruct R as (x' & D' & Fv & Rv). rewrite D in D'. injection D' as <-. auto. }
  assert (SC : forall ax, scale_ok (scale_of ax h) /\ f64_fin (offset_of ax h) = true /\ (Rabs (f64_R (offset_of ax h)) <= 1125899906842624 * Rabs (f64_R (scale_of ax h)))%R).
  { intros ax. unfold scale_of, offset_of. rewrite ES, EO. exact (SF ax). }
  destruct (AX AxX) as (tx & x & LX & DX & BX & FX & RX). destruct (AX AxY) as (ty & y & LY & DY & BY & FY & RY). destruct (AX AxZ) as (tz & z & LZ & DZ & BZ & FZ & RZ).
  destruct (SC AxX) as (SX1 & SX2 & SX3). destruct (SC AxY) as (SY1 & SY2 & SY3). destruct (SC AxZ) as (SZ1 & SZ2 & SZ3).
  destruct (place_one h _ _ _ AxX (axis_of v AxX) x [] (fun _ => 0) FI SX1 SX2 SX3 BX FX RX (fun X => X) (fun a X => match X with end)) as (q1 & kx & Q1 & F1 & G1 & C1 & _).
  destruct (place_one h _ _ _ AxY (axis_of v AxY) y [AxX] (fun _ => kx) F1 SY1 SY2 SY3 BY FY RY) as (q2 & ky & Q2 & F2 & G2 & C2 & D2).
  { intros [X|[]]; discriminate X. } { intros a [<-|[]]. exact G1. }
  destruct (place_one h _ _ _ AxZ (axis_of v AxZ) z [AxX; AxY] (fun a => match a with AxX => kx | _ => ky end) F2 SZ1 SZ2 SZ3 BZ FZ RZ) as (q3 & kz & Q3 & F3 & G3 & C3 & D3).
  { intros [X|[X|[]]]; discriminate X. } { intros a [<-|[<-|[]]]; [apply D2; now left|exact G2]. }
  destruct (time_last h _ _ q3 (s_time s) F3) as (q4 & Q4 & F4 & G4 & T4).
  exists s, q4. split; [exact PE|]. split.
  - split; [exact F4|]. split.
    + intros ax. rewrite G4. unfold scale_of, offset_of in C1, C2, C3. rewrite ES, EO in C1, C2, C3. destruct ax.
      * exists tx, x, kx. split; [exact LX|]. split; [exact DX|]. split; [apply D3; now left|exact C1].
      * exists ty, y, ky. split; [exact LY|]. split; [exact DY|]. split; [apply D3; right; now left|exact C2].
      * exists tz, z, kz. split; [exact LZ|]. split; [exact DZ|]. split; [exact G3|exact C3].
    + intros TP tt LT. specialize (RL "t"%char ltac:(cbn; tauto)). unfold afterP in RL. rewrite LT in RL. exists (s_time s). split; [exact RL|exact (T4 TP)].
  - intros K. cbv zeta. fold v. cbn [set_coord axis_of] in Q1, Q2, Q3. unfold x_of, y_of, z_of.
    rewrite Q1. cbn [obind]. rewrite Q2. cbn [obind]. rewrite Q3. cbn [obind]. rewrite Q4. cbn [obind]. split; [reflexivity|apply new_header].
Qed.
Lemma pass2_ok dh h : plain h -> h_scale h = scale -> h_offset h = offset -> forall rows xyz t, Forall row_fits rows ->
  exists qs, Forall2 (row_point h) rows qs /\
    forall w w', write_points w qs = Ok w' -> pass2 lf flt dh h p (map (line d) rows) xyz t w = Ok (Some (w', match rows with [] => false | _ => true end)).
Proof.
  intros Hp ES EO. induction rows as [|row rows IH]; intros xyz t F.
  - exists []. split; [constructor|]. intros w w' W. cbn [write_points] in W. apply Ok_inj in W. subst w'. reflexivity.
  - pose proof (Forall_inv F) as F1. pose proof (Forall_inv_tail F) as F2. destruct (pass2_row dh h row xyz t Hp ES EO F1) as (s & q & PE & RP & KK).
    destruct (IH (s_xyz s) (s_time s) F2) as (qs & FQ & W2). exists (q :: qs). split; [constructor; assumption|].
    intros w w' W. cbn [write_points] in W. apply obind_ok in W as (w1 & W1 & W). cbn [map pass2].
    destruct (KK (fun _ => Ok None)) as (_ & NH). rewrite NH. cbn [obind]. rewrite PE. cbn [obind].
    destruct (KK (fun q => match write_point w q with Ok w1 => let! o := pass2 lf flt dh h p (map (line d) rows) (s_xyz s) (s_time s) w1 in Ok (match o with Some (w2, _) => Some (w2, true) | None => None end) | Throw _ => Ok None | UB u => UB u end)) as (KE & _).
    cbv zeta in KE |- *. rewrite KE, W1, (W2 w1 w' W). reflexivity.
Qed.
End RUN.

(** ** Counting returns *)
Lemma nth_set (l : list Z) k x j : (k < length l)%nat -> nth j (list_set l k x) 0 = if Nat.eqb j k then x else nth j l 0.
Proof.
  revert k j. induction l as [|y l IH]; intros k j H; [cbn [List.length] in H; lia|]. destruct k as [|k], j as [|j]; cbn [list_set nth Nat.eqb]; try reflexivity. apply IH. cbn [List.length] in H. lia.
Qed.
Definition count_ret (p : text) (rows : list (list text)) (k : Z) : Z := Z.of_nat (length (filter (fun row => ret p row =? k) rows)).
Lemma filter_len {A} (f : A -> bool) (l : list A) : (length (filter f l) <= length l)%nat.
Proof. induction l as [|x l IH]; [reflexivity|]. cbn [filter]. destruct (f x); cbn [List.length]; lia. Qed.
Lemma hist_count p rows : Forall (fun row => 0 <= ret p row < 8) rows -> forall h, length h = 8%nat -> Forall (fun x => 0 <= x /\ x + Z.of_nat (length rows) < 2 ^ 32) h ->
  forall j, (j < 8)%nat -> nth j (hist_of p rows h) 0 = nth j h 0 + count_ret p rows (Z.of_nat j).
Proof.
  intros F. induction F as [|row rows R F IH]; intros h L B j J.
  - cbn [hist_of fold_left]. unfold count_ret. cbn [filter List.length]. lia.
  - cbn [hist_of fold_left]. fold (hist_of p rows (count_return h (ret p row))).
    assert (NB : forall i, (i < 8)%nat -> 0 <= nth i h 0 /\ nth i h 0 + Z.of_nat (S (length rows)) < 2 ^ 32).
    { intros i Hi. rewrite Forall_forall in B. apply (B (nth i h 0)). apply nth_In. lia. }
    assert (CR : forall i, nth i (count_return h (ret p row)) 0 = if Nat.eqb i (Z.to_nat (ret p row)) then nth i h 0 + 1 else nth i h 0).
    { intros i. unfold count_return. rewrite nth_set by lia. destruct (Nat.eqb_spec i (Z.to_nat (ret p row))) as [->|]; [|reflexivity].
      apply Z.mod_small. pose proof (NB (Z.to_nat (ret p row)) ltac:(lia)). lia. }
    rewrite IH; [|unfold count_return; rewrite list_set_length; exact L| |exact J].
    + rewrite CR. unfold count_ret. cbn [filter]. destruct (Nat.eqb_spec j (Z.to_nat (ret p row))) as [E|E].
      * destruct (Z.eqb_spec (ret p row) (Z.of_nat j)); [|lia]. cbn [List.length]. lia.
      * destruct (Z.eqb_spec (ret p row) (Z.of_nat j)); [lia|]. lia.
    + apply Forall_forall. intros x X. apply (In_nth _ _ 0) in X. destruct X as (i & Hi & <-). unfold count_return in Hi. rewrite list_set_length, L in Hi. rewrite CR.
      pose proof (NB i Hi). destruct (Nat.eqb i (Z.to_nat (ret p row))); lia.
Qed.
Lemma hist_new p rows : Forall (fun row => 0 <= ret p row < 8) rows -> Z.of_nat (length rows) < 2 ^ 32 ->
  hist5 (hist_of p rows (repeat 0 8)) = map (count_ret p rows) [1; 2; 3; 4; 5].
Proof.
  intros F N. unfold hist5.
  assert (E : forall j, (j < 8)%nat -> nth j (hist_of p rows (repeat 0 8)) 0 mod 2 ^ 32 = count_ret p rows (Z.of_nat j)).
  { intros j J. rewrite (hist_count p rows F (repeat 0 8) eq_refl); [|apply Forall_forall; intros x X; apply repeat_spec in X; lia|exact J].
    replace (nth j (repeat 0 8) 0) with 0 by (do 8 (destruct j as [|j]; [reflexivity|]); lia). unfold count_ret. pose proof (filter_len (fun row => ret p row =? Z.of_nat j) rows). apply Z.mod_small. lia. }
  cbn [map]. rewrite !E by lia. reflexivity.
Qed.

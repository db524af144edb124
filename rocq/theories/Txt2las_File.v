(** txt2las: the whole run. *)
From Coq Require Import ZArith List Bool String Ascii Lia Reals Lra.
Import ListNotations.
From Flocq Require Import Core BinarySingleNaN Binary Bits.
From Verif Require Import Outcome Bytes CStr Float64 Float64_Proofs Schema_Model Schema_Spec Header_Model Vlr_Model Point_Model Point_Spec Point_Api Point_Proofs Stream_Model Writer_Model IO_Spec Writer_Api Writer_Append
  Writer_File Writer_RT IO_Round Reader_Spec Reader_Proofs Rewrite_Proofs Prop_Reader Prop_Rewrite
  Coord_Api Bounds_Proofs Coord_Proofs Coord_Header Cols_Spec Txt_Spec Txt_Proofs Txt2las_Model Txt2las_Spec Txt2las_Text Txt2las_Fields Txt2las_Point Txt2las_Head Txt2las_Run.
Local Open Scope list_scope.
Local Open Scope Z_scope.
Local Notation length := List.length (only parsing).

(** ** The format has the columns of the table *)
Lemma has_in c p : existsb (Ascii.eqb c) p = true <-> In c p.
Proof.
  rewrite existsb_exists. split.
  - intros (x & I & E). apply Ascii.eqb_eq in E. now subst.
  - intros I. exists c. split; [exact I|apply Ascii.eqb_refl].
Qed.
Lemma rgb_in c p : In c ["R"; "G"; "B"]%char -> In c p -> existsb (fun c => existsb (Ascii.eqb c) ["R"; "G"; "B"]%char) p = true.
Proof. intros A B. apply existsb_exists. exists c. split; [exact B|now apply has_in]. Qed.
Lemma format_cases p : exists rgb time : bool, rgb = existsb (fun c => existsb (Ascii.eqb c) ["R"; "G"; "B"]%char) p /\ time = existsb (Ascii.eqb "t"%char) p /\
  format_of p = (if rgb then 2 else 0) + (if time then 1 else 0).
Proof. eexists _, _. split; [reflexivity|]. split; reflexivity. Qed.
Lemma has_column p c a lo hi : stored_letter c = Some (a, lo, hi) -> In c p -> attr_range (format_of p) a <> None.
Proof.
  intros S I. destruct (format_cases p) as (rgb & time & RG & TM & ->). apply stored_cases in S. cbn [table_letters In] in S.
  repeat match type of S with _ \/ _ => destruct S as [S|S] | False => destruct S end; injection S as <- <- <- <-; try discriminate;
    match type of I with In ?c p => rewrite (rgb_in c p ltac:(cbn; tauto) I) in RG end; subst rgb; destruct time; discriminate.
Qed.
Lemma has_time p : In "t"%char p <-> attr_range (format_of p) ATime <> None.
Proof.
  destruct (format_cases p) as (rgb & time & RG & TM & ->). rewrite <- has_in, <- TM. destruct rgb, time; split; intros X; try discriminate; try reflexivity; cbn in X; congruence.
Qed.

(** ** The record of a point *)
Lemma get_field F p a k : point_wf p -> p_format p = fmt F -> match a with ARawX | ARawY | ARawZ | AScanAngleRank => False | _ => True end ->
  attr_range (fmt F) a <> None -> api_get a p = Ok k -> field (fmt F) a (p_data p) = k.
Proof.
  intros W E NS N G. unfold field. destruct (attr_range (fmt F) a) as [[[s w] sg]|] eqn:R; [|congruence].
  rewrite (api_get_spec p a s w sg W ltac:(rewrite E; exact R)) in G. apply Ok_inj in G.
  assert (SG : sg = false).
  { destruct a; try contradiction; cbn [attr_range] in R; try (injection R as <- <- <-; reflexivity); repeat match type of R with context [if ?c then _ else _] => destruct c end; try discriminate; injection R as <- <- <-; reflexivity. }
  subst sg. exact G.
Qed.
Lemma get_raw p a k : point_wf p -> match a with ARawX | ARawY | ARawZ | AScanAngleRank => True | _ => False end -> api_get a p = Ok k -> raw_value a (p_data p) = k.
Proof.
  intros W T G. unfold raw_value. assert (R : attr_range (p_format p) a = attr_range 0 a) by (destruct a; try contradiction; reflexivity).
  destruct (attr_range 0 a) as [[[s w] sg]|] eqn:E; [|destruct a; discriminate || contradiction]. rewrite (api_get_spec p a s w sg W R) in G. apply Ok_inj in G. exact G.
Qed.
Lemma row_record F h scale offset p row q : row_point scale offset p h row q -> Forall2 (column_fits scale offset) p row -> Forall2 takes p row ->
  fmt F = get_format h -> get_format h = format_of p -> record_of_row F scale offset p row (p_data q).
Proof.
  intros ((W & HH & L & V) & CO & TI) CF TK E1 E2. assert (PF : p_format q = fmt F) by (unfold p_format; now rewrite HH).
  split; [|split].
  - intros c ax D. destruct (CO ax) as (t & x & k & LT & DT & G & SC). assert (C : c = axis_char ax) by (apply double_cases in D; cbn in D; destruct D as [D|[D|[D|[]]]]; injection D as <- <-; reflexivity). subst c.
    exists t, x. split; [exact LT|]. split; [exact DT|]. rewrite (get_raw q (raw_attr ax) k W); [exact SC|destruct ax; exact I|exact G].
  - intros c a lo hi SL. assert (VV : attr_range (fmt F) a <> None -> value F a (p_data q) = afterm (fun _ => 0) p row c).
    { intros N. rewrite E1 in N. specialize (V c a lo hi SL N). rewrite <- E1 in N.
      assert (A : a = AScanAngleRank \/ match a with ARawX | ARawY | ARawZ | AScanAngleRank => False | _ => True end).
      { apply stored_cases in SL. cbn [table_letters In] in SL. repeat match type of SL with _ \/ _ => destruct SL as [SL|SL] | False => destruct SL end; injection SL as <- <- <- <-; cbn; tauto. }
      destruct A as [->|A]; [exact (get_raw q AScanAngleRank _ W I V)|]. replace (value F a (p_data q)) with (field (fmt F) a (p_data q)) by (destruct a; try reflexivity; contradiction).
      exact (get_field F q a _ W PF A N V). }
    unfold afterm in VV. destruct (last_text c p row) as [t|] eqn:LT.
    + assert (IC : In c p). { destruct (in_dec Ascii.ascii_dec c p) as [X|X]; [exact X|]. rewrite last_not in LT by exact X. discriminate. }
      rewrite VV by (rewrite E1, E2; exact (has_column p c a lo hi SL IC)).
      pose proof (last_fits _ _ _ _ _ CF LT) as FT. unfold column_fits in FT.
      replace (double_letter c) with (@None axis) in FT by (apply stored_cases in SL; cbn [table_letters In] in SL; repeat match type of SL with _ \/ _ => destruct SL as [SL|SL] | False => destruct SL end; injection SL as <- <- <- <-; reflexivity).
      rewrite SL in FT. destruct FT as (n & N & _). unfold numv. rewrite N. reflexivity.
    + destruct (attr_range (fmt F) a) eqn:R; [rewrite VV; [reflexivity|discriminate]|].
      assert (A : value F a (p_data q) = field (fmt F) a (p_data q)) by (destruct a; try reflexivity; discriminate R). rewrite A. unfold field. now rewrite R.
  - destruct (last_text "t"%char p row) as [t|] eqn:LT.
    + assert (IC : In "t"%char p). { destruct (in_dec Ascii.ascii_dec "t"%char p) as [X|X]; [exact X|]. rewrite last_not in LT by exact X. discriminate. }
      pose proof (proj1 (has_time p) IC) as N. destruct (TI ltac:(rewrite E2; exact N) t eq_refl) as (v & (x & D & Fv & Rv) & G).
      exists x. split; [exact D|]. rewrite (get_field F q ATime _ W PF I ltac:(rewrite E1, E2; exact N) G), f64_of_bits_bits. auto.
    + unfold field. destruct (attr_range (fmt F) ATime) eqn:R; [|reflexivity]. exfalso.
      assert (IC : In "t"%char p). { apply has_time. rewrite <- E2, <- E1, R. discriminate. }
      destruct (last_in "t"%char p row IC (takes_true _ _ TK)) as (t & X). congruence.
Qed.

(** ** Finite scales *)
Lemma scaling_finite scale offset : scaling_fits scale offset ->
  Forall (fun x => f64_fin x = true) [x_of scale; y_of scale; z_of scale; x_of offset; y_of offset; z_of offset].
Proof.
  intros SF. assert (A : forall ax, f64_fin (axis_of scale ax) = true /\ f64_fin (axis_of offset ax) = true) by (intros ax; destruct (SF ax) as ((F & _) & G & _); auto).
  pose proof (A AxX) as [A1 A2]. pose proof (A AxY) as [A3 A4]. pose proof (A AxZ) as [A5 A6]. cbn [axis_of] in *. repeat constructor; assumption.
Qed.
Lemma f2_nth {A B} (R : A -> B -> Prop) l l' i y : Forall2 R l l' -> nth_error l' i = Some y -> exists x, nth_error l i = Some x /\ R x y.
Proof. intros F. revert i. induction F as [|a b l l' H F IH]; intros [|i] E; try discriminate; [injection E as <-; exists a; auto|exact (IH i E)]. Qed.
Lemma f2_filter {A B} (R : A -> B -> Prop) (f : A -> bool) (g : B -> bool) l l' : (forall x y, R x y -> f x = g y) -> Forall2 R l l' -> length (filter f l) = length (filter g l').
Proof. intros H F. induction F as [|a b l l' X F IH]; [reflexivity|]. cbn [filter]. rewrite (H a b X). destruct (g b); cbn [List.length]; lia. Qed.

Definition good_table (scale offset : f64x3) (p d : list ascii) (rows : list (list (list ascii))) : Prop :=
  scaling_fits scale offset /\ delimiter d /\ (forall c, In c ["x"; "y"; "z"]%char -> In c p) /\ rows <> [] /\ Z.of_nat (length rows) < 2 ^ 32 /\
  Forall (fun row => Forall2 (column_fits scale offset) p row /\ (length (line d row) <= 511)%nat) rows.
Lemma new_header_plain doy year : exists h, header_new doy year = Ok h /\ plain h.
Proof.
  destruct (reformat3 3 ltac:(lia)) as (s3 & s & E & _). unfold header_new. rewrite E. cbn [obind]. eexists. split; [reflexivity|].
  unfold plain, get_format, get_record_length. cbn [h_schema]. vm_compute in E. apply Ok_inj in E. subst s3. vm_compute. intuition discriminate.
Qed.

Lemma txt2las_writes lf flt sv doy year junk junk_time o d rows : reads_doubles lf -> reads_floats flt -> id_fits (o_sys o) -> id_fits (o_soft o) -> 0 <= o_minor o <= 2 ->
  good_table (o_scale o) (o_offset o) (o_parse o) d rows ->
  exists h qs, fresh_ok sv h /\ Forall2 (row_point (o_scale o) (o_offset o) (o_parse o) h) rows qs /\
    txt2las lf flt sv doy year junk junk_time o (table_text d rows) = Ok (Some (file_image sv h qs)) /\
    get_format h = format_of (o_parse o) /\ get_record_length h = format_bytes (format_of (o_parse o)) /\
    h_sig h = str "LASF" /\ h_vmaj h = 1 /\ h_vmin h = (if 2 <=? format_of (o_parse o) then 2 else o_minor o) /\ h_scale h = o_scale o /\ h_offset h = o_offset o /\
    written_vlrs sv h = [] /\ firstn 5 (h_byret h) = map (count_ret (o_parse o) rows) [1; 2; 3; 4; 5] /\ h_hsize h = 227 /\
    Forall (point_fits (get_record_length h)) qs /\ Forall (fun q => bytes_ok (p_data q)) qs /\ Forall (fun q => Z.of_nat (length (p_data q)) = get_record_length h) qs.
Proof.
  intros RD RF I1 I2 MN (SF & DL & HX & NE & NB & FR).
  assert (HA : forall ax, In (axis_char ax) (o_parse o)) by (intros ax; apply HX; destruct ax; cbn; tauto).
  assert (FF : Forall (row_fits (o_scale o) (o_offset o) (o_parse o)) rows) by (eapply Forall_impl; [|exact FR]; cbv beta; tauto).
  assert (LN : lines (table_text d rows) = map (line d) rows).
  { apply table_lines; [exact DL| |]; (eapply Forall_impl; [|exact FR]); cbv beta; [|tauto]. intros row (A & _). exact (cells_of _ _ (fits_row _ _ _ _ SF A)). }
  destruct (new_header_plain doy year) as (dh & ED & PD).
  assert (F0 : exists row0, row_fits (o_scale o) (o_offset o) (o_parse o) row0) by (destruct rows as [|row0 rows0]; [contradiction|exists row0; exact (Forall_inv FF)]). destruct F0 as (row0 & F0).
  destruct (first_columns (o_parse o) row0 (HA AxX) (fits_row _ _ _ _ SF F0)) as (pl & _ & _ & PL & _). clear F0.
  destruct (pass1_ok lf flt RD RF (o_scale o) (o_offset o) (o_parse o) d SF DL HA dh pl PD PL rows junk junk_time None 0 (repeat 0 8) FF (conj eq_refl eq_refl) (Z.le_refl 0) NB) as (acc & xyz & tm & P1 & SO & NN).
  destruct acc as [a|]; [|exfalso; apply (NN NE); reflexivity]. destruct SO as (TN & N1 & N2 & TH).
  destruct (boxes_ok _ _ (t_min a) SF N1) as (lo & BL). destruct (boxes_ok _ _ (t_max a) SF N2) as (hi & BH).
  destruct (make_header_ok sv doy year o a lo hi I1 I2 MN) as (h & MH & HF & FM & RL & SG & VJ & VN & SC & OF & WV & BR & _ & _ & HS & _).
  assert (PH : plain h). { split; [rewrite FM; apply format_range|rewrite FM, RL; lia]. }
  destruct (pass2_ok lf flt RD RF (o_scale o) (o_offset o) (o_parse o) d SF DL HA dh h PH SC OF rows xyz tm FF) as (qs & FQ & P2).
  assert (LQ : length qs = length rows) by (clear - FQ; induction FQ; cbn [List.length]; congruence).
  assert (DQ : Forall (fun q => point_wf q /\ Z.of_nat (length (p_data q)) = get_record_length h) qs).
  { apply Forall_forall. intros q Q. apply In_nth_error in Q. destruct Q as (i & Q). destruct (f2_nth _ _ _ _ _ FQ Q) as (row & _ & ((W & _ & L & _) & _)). split; [exact W|].
    rewrite L, Z2Nat.id; [reflexivity|]. rewrite RL. pose proof (format_bytes_ge (format_of (o_parse o))). lia. }
  assert (FIT : Forall (point_fits (get_record_length h)) qs).
  { eapply Forall_impl; [|exact DQ]. cbv beta. intros q (_ & L). split; [lia|]. intros E. rewrite E in L. cbn [List.length] in L. rewrite RL in L. pose proof (format_bytes_ge (format_of (o_parse o))). lia. }
  pose proof (write_file_image sv h qs HF FIT ltac:(rewrite LQ; exact NB)) as W. pose proof (writer_new_fresh sv h HF) as WN. unfold write_file, write_session in W. rewrite WN in W. cbn [obind] in W.
  apply obind_ok in W as (w' & W1 & W2).
  exists h, qs. split; [exact HF|]. split; [exact FQ|]. split.
  { unfold txt2las. rewrite ED. cbn [obind]. rewrite PL. cbn [obind]. rewrite LN, P1. cbn [obind]. rewrite BL. cbn [obind]. rewrite BH. cbn [obind]. rewrite MH. cbn [obind]. rewrite WN, (P2 _ _ W1). cbn [obind].
    destruct rows; [contradiction|]. cbn [orb]. rewrite W2. reflexivity. }
  split; [exact FM|]. split; [exact RL|]. split; [exact SG|]. split; [exact VJ|]. split; [exact VN|]. split; [exact SC|]. split; [exact OF|]. split; [exact WV|]. split.
  { rewrite BR, TH. apply hist_new; [|exact NB]. eapply Forall_impl; [|exact FF]. intros row F. exact (ret_range _ _ (fits_row _ _ _ _ SF F)). }
  split; [exact HS|]. split; [exact FIT|]. split; (eapply Forall_impl; [|exact DQ]); cbv beta; [|tauto]. intros q (Wq & _). exact (proj1 (proj2 Wq)).
Qed.

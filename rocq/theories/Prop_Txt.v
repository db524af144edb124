(** C71: las2txt prints every point. *)
From Coq Require Import ZArith List Bool Lia Lra String Ascii Reals.
From Coq Require Import ZifyBool ZifyNat.
Import ListNotations.
From Flocq Require Import Core BinarySingleNaN Binary Bits.
From Verif Require Import Outcome Bytes Float64 Float64_Proofs Classif_Model Schema_Model Header_Model Vlr_Model Point_Model Point_Spec Point_Api Point_Proofs Coord_Api Coord_Header Stream_Model Stream_Proofs IO_Spec IO_Samples
  Reader_Model Reader_Spec Reader_Api Reader_Open Reader_Hist Reader_Filter Prop_Reader Iter_Proofs Rewrite_Proofs Prop_Rewrite Cols_Spec Cols_Proofs Prop_Cols Txt_Model Txt_Spec Txt_Proofs Txt_Prec.
Local Open Scope Z_scope.
Local Notation length := List.length (only parsing).

(** The decimals of x, y, z and t: those given, or those of the scales and 8 *)
Definition decimals_used (lg : f64 -> f64) (given : option (list nat)) (F : list Z) (pr : nat * nat * nat * nat) : Prop :=
  match given with
  | Some [x; y; z] => pr = (x, y, z, 8%nat)
  | Some [x; y; z; t] => pr = (x, y, z, t)
  | Some _ => False
  | None => exists x y z, stream_precision lg (file_scale F AxX) = Ok x /\ stream_precision lg (file_scale F AxY) = Ok y /\
      stream_precision lg (file_scale F AxZ) = Ok z /\ pr = (Z.to_nat x, Z.to_nat y, Z.to_nat z, 8%nat)
  end.
(** --delimiter: \t and \n are written as two characters *)
Definition delimiter (given d : list ascii) : Prop :=
  (given = list_ascii_of_string "\t" /\ d = [ascii_of_nat 9]) \/ (given = list_ascii_of_string "\n" /\ d = [ascii_of_nat 10]) \/
  (given <> list_ascii_of_string "\t" /\ given <> list_ascii_of_string "\n" /\ d = given).
Lemma delimiter_ok given : delimiter given (choose_delim given).
Proof.
  unfold delimiter, choose_delim, of_string. destruct (list_eq_dec ascii_dec given (list_ascii_of_string "\t")) as [E|N]; [left; auto|].
  destruct (list_eq_dec ascii_dec given (list_ascii_of_string "\n")) as [E|N2]; [right; left; auto|]. right. right. auto.
Qed.
Lemma decimals_ok lg given F h pr : shows_file F h -> decimals_used lg given F pr -> choose_precisions lg given h = Ok pr.
Proof.
  intros Sh D. unfold choose_precisions, decimals_used in *.
  destruct given as [[|x [|y [|z [|t [|u l]]]]]|]; try contradiction; try (now subst pr).
  destruct D as (x & y & z & EX & EY & EZ & ->). pose proof (file_shows F h Sh) as (_ & S).
  assert (SX : scale_of AxX h = x_of (h_scale h) /\ scale_of AxY h = y_of (h_scale h) /\ scale_of AxZ h = z_of (h_scale h)) by (unfold scale_of, axis_of; destruct (h_scale h) as [[? ?] ?]; auto).
  destruct SX as (<- & <- & <-). rewrite (proj1 (S AxX)), (proj1 (S AxY)), (proj1 (S AxZ)), EX. cbn [obind]. rewrite EY. cbn [obind]. rewrite EZ. reflexivity.
Qed.

(** What every run prints, by what the reader delivers *)
Lemma las2txt_run lg xml doy year keep parse delim given pr labels fuel F r recs r1 :
  standard F -> parse <> [] -> decimals_used lg given F pr -> reader_open xml doy year F = Ok r -> shows_file F (r_hdr r) ->
  read_all keep fuel r tt = Ok (recs, true, r1, tt) -> (forall rec, In rec recs -> In rec (records_from F 0)) -> (length recs <= Z.to_nat (f_npts F))%nat ->
  exists d rows, delimiter delim d /\
    las2txt lg xml doy year keep parse delim given labels fuel F =
      Ok ((if labels then line d (map label_text parse) else []) ++ List.concat (map (line d) rows)) /\
    length rows = length recs /\ forall i rec row, nth_error recs i = Some rec -> nth_error rows i = Some row -> Forall2 (good F pr (Z.of_nat i) rec) parse row.
Proof.
  intros HS NP D E Sh RA SUB LE. exists (choose_delim delim). unfold las2txt. rewrite E. cbn [obind]. rewrite (decimals_ok lg given F _ pr Sh D). cbn [obind].
  pose proof HS as [HA HP]. pose proof HA as (HF & _). pose proof HF as (HB & _). pose proof (fields_nonneg F HB) as (_ & N0 & _).
  assert (N32 : f_npts F < 2 ^ 32). { pose proof (Reader_Proofs.u_at_range F 107 4 HB) as X. change (pow256 4) with (2 ^ 32) in X. exact (proj2 X). }
  destruct (write_loop F (r_hdr r) keep parse (choose_delim delim) pr NP fuel r recs r1 0 eq_refl RA) as (rows & EW & LR & T).
  { apply Forall_forall. intros rec I. apply (of_records F _ HS Sh), SUB, I. }
  { lia. }
  exists rows. split; [apply delimiter_ok|]. split; [|split; [exact LR|exact T]].
  change (Z.of_nat 0) with 0 in EW.
  destruct labels; cbn [obind].
  - destruct (row_ok (fun c => Ok (label_text c)) (fun c t => t = label_text c) (choose_delim delim) parse NP) as (row & ER & FA); [eauto|].
    assert (R : row = map label_text parse) by (clear - FA; induction FA as [|c t l l' H FA IH]; [reflexivity|cbn [map]; now rewrite H, IH]).
    rewrite ER, R. cbn [obind]. rewrite EW. reflexivity.
  - rewrite EW. reflexivity.
Qed.
Lemma good_table F pr parse recs rows : length rows = length recs ->
  (forall i rec row, nth_error recs i = Some rec -> nth_error rows i = Some row -> Forall2 (good F pr (Z.of_nat i) rec) parse row) -> table F pr parse recs rows.
Proof.
  intros L H. split; [exact L|]. intros i rec row N1 N2. specialize (H i rec row N1 N2). clear - H. induction H as [|c t l l' [P _] FA IH]; constructor; assumption.
Qed.

(** Every file: the text is the lines of the table of all its points, in order,
    behind one line of labels if wanted. *)
Theorem C71_lines : forall lg xml doy year parse delim given pr labels fuel F,
  standard F -> parse <> [] -> decimals_used lg given F pr -> (Z.to_nat (f_npts F) < fuel)%nat ->
  exists d rows, delimiter delim d /\
    las2txt lg xml doy year no_filter parse delim given labels fuel F =
      Ok ((if labels then line d (map label_text parse) else []) ++ List.concat (map (line d) rows)) /\
    table F pr parse (records_from F 0) rows.
Proof.
  intros lg xml doy year parse delim given pr labels fuel F HS NP D FU. destruct (opened_at xml doy year F HS) as (r & E & Sh & R).
  pose proof HS as [HA HP]. pose proof HA as (HF & _). pose proof HF as (HB & _). pose proof (fields_nonneg F HB) as (_ & N0 & _).
  destruct (Las2las_Loop.read_plain fuel F 0 (r_data r) r R ltac:(lia) ltac:(rewrite Z.sub_0_r; exact FU)) as (r1 & RA & _).
  destruct (las2txt_run lg xml doy year no_filter parse delim given pr labels fuel F r _ r1 HS NP D E Sh RA) as (d & rows & DD & EL & LR & T); [auto| |].
  { unfold records_from. rewrite map_length, seq_length. lia. }
  exists d, rows. split; [exact DD|]. split; [exact EL|]. now apply good_table.
Qed.

(** The labels tell the letters apart, and have no quotation mark inside. *)
Theorem C71_labels : forall c1 c2, In c1 text_letters -> In c2 text_letters -> label_text c1 = label_text c2 -> c1 = c2.
Proof.
  intros c1 c2 I1 I2. unfold text_letters in *. cbn [list_ascii_of_string In] in I1, I2.
  repeat (destruct I1 as [I1|I1]; [subst c1; repeat (destruct I2 as [I2|I2]; [subst c2; cbn; (reflexivity || discriminate)|]); contradiction|]). contradiction.
Qed.

(** The text can be taken apart again: with a delimiter of one character that does
    not occur in numbers, and without class names, the lines and fields of the text
    are the table. *)
Theorem C71_reads_back : forall lg xml doy year parse c given pr fuel F,
  standard F -> parse <> [] -> ~ In "C"%char parse -> decimals_used lg given F pr -> (Z.to_nat (f_npts F) < fuel)%nat ->
  ~ In c (list_ascii_of_string "0123456789.-infa") -> c <> ascii_of_nat 10 ->
  exists text lines rows, las2txt lg xml doy year no_filter parse [c] given false fuel F = Ok text /\
    split_on (ascii_of_nat 10) text = lines ++ [[]] /\ map (split_on c) lines = rows /\ table F pr parse (records_from F 0) rows.
Proof.
  intros lg xml doy year parse c given pr fuel F HS NP NC D FU NI NN. destruct (opened_at xml doy year F HS) as (r & E & Sh & R).
  pose proof HS as [HA HP]. pose proof HA as (HF & _). pose proof HF as (HB & _). pose proof (fields_nonneg F HB) as (_ & N0 & _).
  destruct (Las2las_Loop.read_plain fuel F 0 (r_data r) r R ltac:(lia) ltac:(rewrite Z.sub_0_r; exact FU)) as (r1 & RA & _).
  destruct (las2txt_run lg xml doy year no_filter parse [c] given pr false fuel F r _ r1 HS NP D E Sh RA) as (d & rows & DD & EL & LR & T); [auto| |].
  { unfold records_from. rewrite map_length, seq_length. lia. }
  assert (d = [c]). { destruct DD as [(X & _)|[(X & _)|(_ & _ & X)]]; [discriminate X|discriminate X|exact X]. } subst d.
  assert (OV : forall row t, In row rows -> In t row -> over t).
  { intros row t I1 I2. apply In_nth_error in I1. destruct I1 as (i & I1).
    assert (exists rec, nth_error (records_from F 0) i = Some rec) as (rec & I3).
    { destruct (nth_error (records_from F 0) i) eqn:X; [eauto|]. apply nth_error_None in X. assert (i < length rows)%nat by (apply nth_error_Some; congruence). lia. }
    pose proof (T i rec row I3 I1) as FA. clear - FA I2 NC. induction FA as [|x y l l' [_ G] FA IH]; [contradiction|]. destruct I2 as [->|I2].
    - apply G. intros ->. apply NC. now left.
    - apply IH; [|exact I2]. intros X. apply NC. now right. }
  assert (NR : forall row, In row rows -> row <> []).
  { intros row I1 ->. apply In_nth_error in I1. destruct I1 as (i & I1).
    assert (exists rec, nth_error (records_from F 0) i = Some rec) as (rec & I3).
    { destruct (nth_error (records_from F 0) i) eqn:X; [eauto|]. apply nth_error_None in X. assert (i < length rows)%nat by (apply nth_error_Some; congruence). lia. }
    pose proof (T i rec _ I3 I1) as FA. inversion FA. congruence. }
  assert (OC : forall t, over t -> forall x, In x t -> In x (list_ascii_of_string "0123456789.-infa")) by (intros t O x I; unfold over in O; rewrite Forall_forall in O; apply (O x I)).
  assert (NL : ~ In (ascii_of_nat 10) (list_ascii_of_string "0123456789.-infa")) by (vm_compute; intuition discriminate).
  exists (List.concat (map (line [c]) rows)), (map (join [c]) rows), rows. split; [exact EL|]. split; [|split].
  - apply split_lines. intros row I J. apply join_in in J. destruct J as [J|(t & I1 & I2)]; [unfold newline in J; congruence|]. apply NL. apply (OC t); [now apply (OV row)|exact I2].
  - rewrite map_map. rewrite <- (map_id rows) at 2. apply map_ext_in. intros row I. apply split_join; [now apply NR|]. intros t I1 I2. apply NI. apply (OC t); [now apply (OV row)|exact I2].
  - now apply good_table.
Qed.

(** ** The decimals taken from a scale *)
(** A scale between 0 and 1: 10^-p is not above the scale, and 10^(1-p) not below,
    but for the accuracy of std::log10. *)
Theorem C71_precision : forall lg s, log10_ok lg -> f64_fin s = true -> (0 < f64_R s < 1)%R ->
  exists p : nat, stream_precision lg s = Ok (Z.of_nat p) /\
    (- INR p <= ln (f64_R s) / ln 10 + / 2 ^ 40 /\ ln (f64_R s) / ln 10 - / 2 ^ 40 < 1 - INR p)%R.
Proof. intros lg s H F B. destruct (precision_of lg s H F B) as (p & E & A & C). exists p. split; [exact E|]. split; assumption. Qed.

Definition axis_letter (ax : axis) : ascii := match ax with AxX => "x" | AxY => "y" | AxZ => "z" end%char.
Lemma fa2_nth {A B} (P : A -> B -> Prop) l l' : Forall2 P l l' -> forall j a b, nth_error l j = Some a -> nth_error l' j = Some b -> P a b.
Proof. induction 1 as [|x y l l' H FA IH]; intros [|j] a b E1 E2; try discriminate; cbn in *; [now injection E1 as <-; injection E2 as <-|eauto]. Qed.
(** Files with scales 10^-p and offsets that are multiples of them, as doubles go: the
    default decimals are enough, and the coordinates printed are exactly those the
    integers of the records stand for. *)
Definition decimal_file (F : list Z) (p : axis -> nat) (K : axis -> Z) : Prop := forall ax,
  (1 <= p ax <= 200)%nat /\ Z.abs (K ax) <= 2 ^ 44 /\ close (file_scale F ax) (/ 10 ^ p ax) /\ close (file_offset F ax) (IZR (K ax) / 10 ^ p ax).
Theorem C71_exact_decimals : forall lg xml doy year parse delim labels fuel F p K,
  standard F -> log10_ok lg -> parse <> [] -> decimal_file F p K -> (Z.to_nat (f_npts F) < fuel)%nat ->
  exists d rows, delimiter delim d /\
    las2txt lg xml doy year no_filter parse delim None labels fuel F =
      Ok ((if labels then line d (map label_text parse) else []) ++ List.concat (map (line d) rows)) /\
    length rows = length (records_from F 0) /\
    forall i j ax rec row t, nth_error (records_from F 0) i = Some rec -> nth_error rows i = Some row -> nth_error parse j = Some (axis_letter ax) -> nth_error row j = Some t ->
      exists m q, number t = Some (m, q) /\ (IZR m / 10 ^ q = (IZR (raw_value (raw_attr ax) rec) + IZR (K ax)) / 10 ^ p ax)%R.
Proof.
  intros lg xml doy year parse delim labels fuel F p K HS LG NP DF FU.
  assert (PR : forall ax, exists q, stream_precision lg (file_scale F ax) = Ok (Z.of_nat q) /\ (q = p ax \/ q = S (p ax))).
  { intros ax. destruct (DF ax) as (P & _ & C & _). apply precision_decimal; [exact LG|lia|exact C]. }
  destruct (PR AxX) as (qx & EX & QX), (PR AxY) as (qy & EY & QY), (PR AxZ) as (qz & EZ & QZ).
  assert (DU : decimals_used lg None F (qx, qy, qz, 8%nat)).
  { exists (Z.of_nat qx), (Z.of_nat qy), (Z.of_nat qz). rewrite !Nat2Z.id. auto. }
  destruct (C71_lines lg xml doy year parse delim None _ labels fuel F HS NP DU FU) as (d & rows & DD & EL & LR & T).
  exists d, rows. split; [exact DD|]. split; [exact EL|]. split; [exact LR|].
  intros i j ax rec row t N1 N2 N3 N4. pose proof (fa2_nth _ _ _ (T i rec row N1 N2) j _ _ N3 N4) as P.
  set (q := match ax with AxX => qx | AxY => qy | AxZ => qz end).
  destruct (DF ax) as (P1 & K1 & C1 & C2).
  destruct (exact_decimal (file_scale F ax) (file_offset F ax) (p ax) q (K ax) (raw_value (raw_attr ax) rec)) as (FD & EX2);
    [exact P1|destruct ax; assumption|exact C1|exact C2|exact K1| |].
  { unfold raw_value. destruct (raw_range 0 ax) as (s & R & _). rewrite R. cbn [decode_bits]. apply Bytes.to_signed_range; lia. }
  assert (PP : f64_fin (coordinate F ax rec) = true -> exists m, number t = Some (m, q) /\ nearest_decimal q (f64_R (coordinate F ax rec)) m).
  { destruct ax; exact P. }
  destruct (PP FD) as (m & EM & NM). exists m, q. split; [exact EM|]. apply EX2. exact NM.
Qed.

Lemma filter_le {A} (f : A -> bool) l : (length (filter f l) <= length l)%nat.
Proof. induction l as [|a l IH]; [apply le_n|]. cbn. destruct (f a); cbn; lia. Qed.
Lemma init_in {A} (l : list A) x : In x (removelast l) -> In x l.
Proof. induction l as [|a l IH]; intros I; [exact I|]. cbn in I. destruct l; [contradiction|]. destruct I as [I|I]; [now left|right; auto]. Qed.
Lemma init_le {A} (l : list A) : (length (removelast l) <= length l)%nat.
Proof. induction l as [|a l IH]; [apply le_n|]. cbn. destruct l; cbn in *; lia. Qed.

(** ** With filters: the accepted points, but for the last one if the two before it
    are not accepted (Reader_Filter; C27). *)
Theorem C71_filtered : forall lg xml doy year parse delim given pr labels fuel F,
  standard F -> parse <> [] -> decimals_used lg given F pr -> (Z.to_nat (f_npts F) < fuel)%nat -> exact_end F -> f_npts F + 1 < 2 ^ 32 ->
  exists h, shows_file F h /\ forall keep,
    let acc rec := keep (mkPoint rec h) in
    let recs := if isolated_last F acc then removelast (filter acc (records_from F 0)) else filter acc (records_from F 0) in
    exists d rows, delimiter delim d /\
      las2txt lg xml doy year (stateless keep) parse delim given labels fuel F =
        Ok ((if labels then line d (map label_text parse) else []) ++ List.concat (map (line d) rows)) /\
      table F pr parse recs rows.
Proof.
  intros lg xml doy year parse delim given pr labels fuel F HS NP D FU EE N1. pose proof HS as [HA HP].
  destruct (opened_at xml doy year F HS) as (r & E & Sh & R). exists (r_hdr r). split; [exact Sh|]. intros keep acc recs.
  pose proof HA as (HF & NS & _ & RL & _).
  destruct (filtered_all xml doy year F HF NS RL EE N1) as (r' & E' & X). rewrite E in E'. apply Writer_Append.Ok_inj in E'. subst r'.
  destruct (X keep fuel FU) as (r1 & RA). change (let acc d := keep (mkPoint d (r_hdr r)) in if isolated_last F acc then removelast (filter acc (records_from F 0)) else filter acc (records_from F 0)) with recs in RA.
  pose proof (filter_le acc) as LF. pose proof (@init_in (list Z)) as SB. pose proof (@init_le (list Z)) as SL.
  assert (RR : length (records_from F 0) = Z.to_nat (f_npts F)) by (unfold records_from; rewrite map_length, seq_length; lia).
  destruct (las2txt_run lg xml doy year (stateless keep) parse delim given pr labels fuel F r recs r1 HS NP D E Sh RA) as (d & rows & DD & EL & LR & T).
  - intros rec I. assert (I2 : In rec (filter acc (records_from F 0))) by (unfold recs in I; destruct (isolated_last F acc); auto). apply filter_In in I2. apply I2.
  - rewrite <- RR. unfold recs. destruct (isolated_last F acc); [eapply Nat.le_trans; [apply SL|apply LF]|apply LF].
  - exists d, rows. split; [exact DD|]. split; [exact EL|]. now apply good_table.
Qed.

(** ** What goes wrong *)
(** A scale that is a whole number, such as 1, has no fractional part: log10 gives
    minus infinity, whose conversion to an integer is undefined. *)
Theorem C71_whole_scale_refuted : forall lg xml doy year keep parse delim labels fuel F k,
  standard F -> log10_ok lg -> f64_fin (file_scale F AxX) = true -> f64_R (file_scale F AxX) = IZR k ->
  las2txt lg xml doy year keep parse delim None labels fuel F = UB UBFloatToInt.
Proof.
  intros lg xml doy year keep parse delim labels fuel F k HS (LZ & _) FX EX. destruct (opened_at xml doy year F HS) as (r & E & Sh & R).
  unfold las2txt. rewrite E. cbn [obind]. unfold choose_precisions. pose proof (file_shows F _ Sh) as (_ & S).
  assert (SX : scale_of AxX (r_hdr r) = x_of (h_scale (r_hdr r))) by (unfold scale_of, axis_of; destruct (h_scale (r_hdr r)) as [[? ?] ?]; reflexivity).
  rewrite <- SX, (proj1 (S AxX)). set (s := file_scale F AxX) in *. clearbody s.
  destruct (trunc_f64 s FX) as (T1 & T2). rewrite EX, Ztrunc_IZR in T2. destruct (Coord_Proofs.sub_ok s (f64_trunc s) FX T1) as (S1 & S2).
  { rewrite T2, EX, Rminus_diag_eq by reflexivity. rewrite Rabs_R0. apply bpow_ge_0. }
  rewrite T2, EX, Rminus_diag_eq in S2 by reflexivity.
  assert (R0 : Bounds_Proofs.rnd64 0 = 0%R) by (unfold Bounds_Proofs.rnd64; apply round_0; typeclasses eauto). rewrite R0 in S2.
  unfold stream_precision. rewrite (LZ _ S1 S2). reflexivity.
Qed.

(** An empty --parse is read behind its end. *)
Theorem C71_empty_parse_refuted : forall lg xml doy year delim given pr labels fuel F,
  standard F -> decimals_used lg given F pr -> (0 < fuel)%nat -> labels = true \/ 0 < f_npts F ->
  las2txt lg xml doy year no_filter [] delim given labels fuel F = UB UBOutOfBounds.
Proof.
  intros lg xml doy year delim given pr labels fuel F HS D FU L. destruct (opened_at xml doy year F HS) as (r & E & Sh & R).
  unfold las2txt. rewrite E. cbn [obind]. rewrite (decimals_ok lg given F _ pr Sh D). cbn [obind]. destruct labels; [reflexivity|].
  destruct L as [L|L]; [discriminate|]. cbn [obind]. destruct fuel as [|fuel]; [lia|]. cbn [write_points].
  destruct (next_point F 0 _ r R ltac:(lia)) as (r1 & E1 & P1 & H1 & R1). rewrite E1. rewrite P1.
  unfold point_string. pose proof (of_records F _ HS Sh _ (in_records F 0 ltac:(lia))) as OF.
  destruct (letter_ok F pr 0 (file_record F 0) (r_hdr r) "R"%char OF) as (t & X & _). unfold letter_text in X. destruct pr as [[[px py] pz] pt].
  destruct (get_color _); cbn [obind] in *; [reflexivity|discriminate|discriminate].
Qed.

(** Offsets that are not multiples of the scale: the default decimals are too few, and
    different points of one file print alike. *)
Definition tenth : f64 := f64_of_bits 0x3FB999999999999A.
Definition minus_one : f64 := f64_of_bits 0xBFF0000000000000.
Definition tenths : list Z :=
  let f := raw_file 2 227 0 0 20 2 ([1; 0; 0; 0] ++ repeat 0 16 ++ [2; 0; 0; 0] ++ repeat 0 16) in
  let s := [0x9A; 0x99; 0x99; 0x99; 0x99; 0x99; 0xB9; 0x3F] in let o := [0x9A; 0x99; 0x99; 0x99; 0x99; 0x99; 0xA9; 0x3F] in
  firstn 131 f ++ s ++ s ++ s ++ o ++ o ++ o ++ skipn 179 f.
Theorem C71_alike_refuted : forall lg xml doy year, lg tenth = minus_one ->
  standard tenths /\ file_scale tenths AxX = tenth /\ file_offset tenths AxX = f64_of_bits 0x3FA999999999999A (* 0.05 *) /\
  map (raw_value ARawX) (records_from tenths 0) = [1; 2] /\
  las2txt lg xml doy year no_filter ["x"%char] [","%char] None false 5 tenths = Ok (list_ascii_of_string "0.2" ++ [ascii_of_nat 10] ++ list_ascii_of_string "0.2" ++ [ascii_of_nat 10]).
Proof.
  intros lg xml doy year L.
  assert (HS : standard tenths).
  { split; [split; [apply las_fileb_ok; vm_compute; reflexivity|]; split; [apply no_schema_vlrb; vm_compute; reflexivity|];
           split; [repeat apply Forall_cons; try apply Forall_nil; vm_compute; reflexivity|];
           split; [vm_compute; reflexivity|intros _; vm_compute; discriminate]
          |split; [apply las_fileb_ok; vm_compute; reflexivity|]; split; [apply no_schema_vlrb; vm_compute; reflexivity|];
           split; [vm_compute; reflexivity|]; split; [vm_compute; apply Forall_nil|];
           split; [vm_compute; discriminate|split; vm_compute; reflexivity]]. }
  assert (SC : forall ax, file_scale tenths ax = tenth) by (intros []; unfold file_scale, tenth; f_equal).
  split; [exact HS|]. split; [apply SC|]. split; [unfold file_offset; f_equal|]. split; [vm_compute; reflexivity|].
  assert (ST : stream_precision lg tenth = Ok 1).
  { unfold stream_precision. replace (f64_sub tenth (f64_trunc tenth)) with tenth by (apply B2FF_inj; vm_compute; reflexivity). rewrite L. vm_compute. reflexivity. }
  destruct (opened_at xml doy year tenths HS) as (r & E & Sh & R).
  assert (X : las2txt lg xml doy year no_filter ["x"%char] [","%char] None false 5 tenths = las2txt lg xml doy year no_filter ["x"%char] [","%char] (Some [1; 1; 1]%nat) false 5 tenths).
  { unfold las2txt. rewrite E. cbn [obind]. rewrite (decimals_ok lg None tenths _ (1, 1, 1, 8)%nat Sh). 2:{ exists 1, 1, 1. rewrite !SC, ST. auto. } reflexivity. }
  rewrite X. vm_compute. reflexivity.
Qed.

(** With the default delimiter "," a class name can be two fields. *)
Theorem C71_class_name_refuted : forall lg xml doy year, standard hundredths /\ f_npts hundredths = 1 /\
  exists text, las2txt lg xml doy year no_filter (list_ascii_of_string "cCM") [","%char] (Some [2; 2; 2]%nat) false 5 hundredths = Ok (text ++ [ascii_of_nat 10]) /\
    map string_of_list_ascii (split_on ","%char text) = ["0"; "Created"; " never classified"; "0"]%string.
Proof.
  intros. split; [apply (C70_decimal_refuted xml doy year 0)|]. split; [vm_compute; reflexivity|].
  exists (list_ascii_of_string "0,Created, never classified,0"). split; vm_compute; reflexivity.
Qed.

(** Some file names never are written: "stdout.txt", "Stdoubt" go to the standard output. *)
Theorem C71_output_name : forall name, output_file name = Some name <->
  ~ (exists a b c d e rest, name = a :: b :: c :: d :: e :: rest /\ In a ["s"; "S"]%char /\ In b ["t"; "T"]%char /\ In c ["d"; "D"]%char /\ In d ["o"; "O"]%char /\ In e ["u"; "U"]%char).
Proof.
  assert (U : forall x y, upper x = upper y -> upper y = y -> In x [upper y; ascii_of_nat (nat_of_ascii y + 32)] \/ upper x <> y).
  { intros x y H1 H2. left. rewrite H2 in H1. rewrite H2. revert H1. unfold upper.
    destruct ((97 <=? nat_of_ascii x)%nat && (nat_of_ascii x <=? 122)%nat) eqn:B; intros H; [right; left|left; now symmetry].
    apply andb_true_iff in B. destruct B as [B1 B2]. apply Nat.leb_le in B1, B2. rewrite <- H. rewrite nat_ascii_embedding by lia.
    replace (nat_of_ascii x - 32 + 32)%nat with (nat_of_ascii x) by lia. apply ascii_nat_embedding. }
  assert (V : forall x y, upper y = y -> upper x = y -> In x [ascii_of_nat (nat_of_ascii y + 32); y]).
  { intros x y H1 H2. destruct (U x y ltac:(congruence) H1) as [[I|[I|[]]]|N]; [right; left; congruence|left; congruence|congruence]. }
  intros name. unfold output_file. destruct (list_eq_dec ascii_dec (map upper (firstn 5 name)) (of_string "STDOU")) as [E|N].
  - split; [discriminate|]. intros X. exfalso. apply X. destruct name as [|a [|b [|c [|d [|e rest]]]]]; try discriminate E. cbn in E. 
    injection E as E1 E2 E3 E4 E5. exists a, b, c, d, e, rest. split; [reflexivity|].
    split; [exact (V a "S"%char eq_refl E1)|]. split; [exact (V b "T"%char eq_refl E2)|]. split; [exact (V c "D"%char eq_refl E3)|].
    split; [exact (V d "O"%char eq_refl E4)|exact (V e "U"%char eq_refl E5)].
  - split; [|reflexivity]. intros _ (a & b & c & d & e & rest & -> & A & B & C & D & F). apply N. cbn [firstn map].
    repeat match goal with H : In ?x [_; _] |- _ => destruct H as [H|[H|[]]]; [subst x|subst x] end; reflexivity.
Qed.
Theorem C71_output_name_refuted : output_file (list_ascii_of_string "stdout.txt") = None /\ output_file (list_ascii_of_string "stdoubtful.csv") = None.
Proof. split; reflexivity. Qed.

(** ** The hypotheses can be met *)
Lemma close_bits b v : (exists n d : Z, f64_fin (f64_of_bits b) = true /\ f64_R (f64_of_bits b) = (IZR n / IZR d)%R /\ (Rabs (IZR n / IZR d - v) <= / 2 ^ 52 * Rabs v)%R) -> close (f64_of_bits b) v.
Proof. intros (n & d & F & E & H). split; [exact F|]. now rewrite E. Qed.
Lemma tenth_close : close tenth (/ 10 ^ 1).
Proof.
  apply close_bits. exists 3602879701896397, 36028797018963968. split; [vm_compute; reflexivity|]. split.
  - unfold f64_R. replace (f64_of_bits 4591870180066957722) with tenth by reflexivity.
    replace (B2R 53 1024 tenth) with (FF2R radix2 (B2FF 53 1024 tenth)) by apply FF2R_B2FF.
    replace (B2FF 53 1024 tenth) with (F754_finite false 7205759403792794 (-56)) by (vm_compute; reflexivity). unfold FF2R, F2R. cbn [Fnum Fexp cond_Zopp].
    change (bpow radix2 (-56)) with (/ IZR 72057594037927936)%R. lra.
  - replace (/ 10 ^ 1)%R with (1 / 10)%R by lra. replace (IZR 3602879701896397 / IZR 36028797018963968 - 1 / 10)%R with (/ 180143985094819840)%R by lra.
    rewrite !Rabs_pos_eq by lra. replace (/ 2 ^ 52)%R with (/ 4503599627370496)%R by (f_equal; lra). lra.
Qed.
Theorem log10_exists : exists lg, log10_ok lg /\ lg tenth = minus_one.
Proof.
  exists (fun x => if Z.eq_dec (f64_bits x) (f64_bits tenth) then minus_one else round_log10 x).
  destruct round_log10_ok as (A & B). pose proof tenth_close as (TF & TC).
  assert (EQ : forall x, f64_bits x = f64_bits tenth -> x = tenth).
  { intros x E. rewrite <- (f64_of_bits_bits x), <- (f64_of_bits_bits tenth). exact (f_equal f64_of_bits E). }
  split; [split|].
  - intros x F Z0. destruct (Z.eq_dec _ _) as [E|N]; [|now apply A]. exfalso. apply EQ in E. subst x. rewrite Z0 in TC.
    rewrite Rminus_0_l, Rabs_Ropp in TC. rewrite Rabs_pos_eq in TC by lra. replace (/ 2 ^ 52)%R with (/ 4503599627370496)%R in TC by (f_equal; lra). lra.
  - intros x F P. destruct (Z.eq_dec _ _) as [E|N]; [|now apply B]. apply EQ in E. subst x. split; [vm_compute; reflexivity|].
    assert (M : f64_R minus_one = (-1)%R).
    { unfold f64_R. rewrite <- FF2R_B2FF. replace (B2FF 53 1024 minus_one) with (F754_finite true 4503599627370496 (-52)) by (vm_compute; reflexivity). unfold FF2R, F2R. cbn [Fnum Fexp cond_Zopp].
      change (bpow radix2 (-52)) with (/ IZR 4503599627370496)%R. change (- Z.pos 4503599627370496) with (-4503599627370496). lra. }
    rewrite (Rabs_pos_eq (/ 10 ^ 1)) in TC by lra. pose proof (log10_close (f64_R tenth) (/ 10 ^ 1) ltac:(lra) TC) as L. rewrite log10_pow in L. fold (log10 (f64_R tenth)). rewrite M. change (INR 1) with 1%R in L.
    apply Coord_Proofs.rabs in L. replace (/ 2 ^ 51)%R with (/ 2251799813685248)%R in L by (f_equal; lra). replace (/ 2 ^ 40)%R with (/ 1099511627776)%R by (f_equal; lra). apply Rabs_le. lra.
  - destruct (Z.eq_dec _ _) as [E|N]; [reflexivity|congruence].
Qed.
(** scale 0.1, offset 0.3, the point -7, and what is printed *)
Definition thirds : list Z :=
  let f := raw_file 2 227 0 0 20 2 ([0xF9; 0xFF; 0xFF; 0xFF] ++ repeat 0 16 ++ [2; 0; 0; 0] ++ repeat 0 16) in
  let s := [0x9A; 0x99; 0x99; 0x99; 0x99; 0x99; 0xB9; 0x3F] in let o := [0x33; 0x33; 0x33; 0x33; 0x33; 0x33; 0xD3; 0x3F] in
  firstn 131 f ++ s ++ s ++ s ++ o ++ o ++ o ++ skipn 179 f.
Lemma thirds_standard : standard thirds.
Proof.
  split; [split; [apply las_fileb_ok; vm_compute; reflexivity|]; split; [apply no_schema_vlrb; vm_compute; reflexivity|];
           split; [repeat apply Forall_cons; try apply Forall_nil; vm_compute; reflexivity|];
           split; [vm_compute; reflexivity|intros _; vm_compute; discriminate]
          |split; [apply las_fileb_ok; vm_compute; reflexivity|]; split; [apply no_schema_vlrb; vm_compute; reflexivity|];
           split; [vm_compute; reflexivity|]; split; [vm_compute; apply Forall_nil|];
           split; [vm_compute; discriminate|split; vm_compute; reflexivity]].
Qed.
Example C71_instance : forall lg xml doy year, log10_ok lg -> decimal_file thirds (fun _ => 1%nat) (fun _ => 3) /\
  decimals_used lg (Some [1; 1; 1]%nat) thirds (1, 1, 1, 8)%nat /\
  las2txt lg xml doy year no_filter (list_ascii_of_string "xXM") [","%char] (Some [1; 1; 1]%nat) false 5 thirds =
    Ok (list_ascii_of_string "-0.4,-7,0" ++ [ascii_of_nat 10] ++ list_ascii_of_string "0.5,2,1" ++ [ascii_of_nat 10]) /\
  number (list_ascii_of_string "-0.4") = Some (-4, 1%nat).
Proof.
  intros lg xml doy year L. split; [|split; [reflexivity|split; vm_compute; reflexivity]].
  intros ax. split; [lia|]. split; [lia|]. split.
  - replace (file_scale thirds ax) with tenth by (destruct ax; unfold file_scale, tenth; f_equal). exact tenth_close.
  - replace (file_offset thirds ax) with (f64_of_bits 0x3FD3333333333333) by (destruct ax; unfold file_offset; f_equal).
    apply close_bits. exists 5404319552844595, 18014398509481984. split; [vm_compute; reflexivity|]. split.
    + unfold f64_R. rewrite <- FF2R_B2FF. replace (B2FF 53 1024 _) with (F754_finite false 5404319552844595 (-54)) by (vm_compute; reflexivity). unfold FF2R, F2R. cbn [Fnum Fexp cond_Zopp].
      change (bpow radix2 (-54)) with (/ IZR 18014398509481984)%R. lra.
    + replace (IZR 3 / 10 ^ 1)%R with (3 / 10)%R by lra. apply Rabs_le. rewrite (Rabs_pos_eq (3 / 10)) by lra. replace (/ 2 ^ 52)%R with (/ 4503599627370496)%R by (f_equal; lra). lra.
Qed.

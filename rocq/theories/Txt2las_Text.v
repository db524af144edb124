(** txt2las: lines, columns and numbers. *)
From Coq Require Import ZArith List Bool String Ascii Lia Reals Lra.
Import ListNotations.
From Verif Require Import Outcome Bytes Float64 Txt_Spec Txt_Proofs Txt2las_Model Txt2las_Spec.
Local Open Scope list_scope.
Local Open Scope Z_scope.
Local Notation length := List.length (only parsing).

Lemma take_all f (t : text) : (forall c, In c t -> f c = true) -> take_while f t = t.
Proof. induction t as [|c t IH]; intros H; [reflexivity|]. cbn [take_while]. rewrite (H c (or_introl eq_refl)), IH; [reflexivity|]. intros x Hx. apply H. now right. Qed.
Lemma take_app f (t r : text) : (forall c, In c t -> f c = true) -> match r with [] => True | c :: _ => f c = false end -> take_while f (t ++ r) = t.
Proof.
  intros H R. induction t as [|c t IH]; cbn [app take_while]; [destruct r; [reflexivity|cbn [take_while]; now rewrite R]|].
  rewrite (H c (or_introl eq_refl)), IH; [reflexivity|]. intros x Hx. apply H. now right.
Qed.
Lemma drop_app f (t r : text) : (forall c, In c t -> f c = true) -> drop_while f (t ++ r) = drop_while f r.
Proof. induction t as [|c t IH]; intros H; [reflexivity|]. cbn [app drop_while]. rewrite (H c (or_introl eq_refl)), IH; [reflexivity|]. intros x Hx. apply H. now right. Qed.
Lemma drop_stop f (r : text) : match r with [] => True | c :: _ => f c = false end -> drop_while f r = r.
Proof. destruct r as [|c r]; intros H; [reflexivity|]. cbn [drop_while]. now rewrite H. Qed.

Lemma is_sep_spec c : is_sep c = true <-> separator c.
Proof. unfold is_sep, separator. rewrite !orb_true_iff, !Ascii.eqb_eq. tauto. Qed.
Lemma not_sep c : ~ separator c -> is_sep c = false.
Proof. intros H. destruct (is_sep c) eqn:E; [|reflexivity]. apply is_sep_spec in E. contradiction. Qed.
Lemma nl_not_sep : is_sep nl = false. Proof. reflexivity. Qed.

(** ** Lines *)
Lemma gets_line t : (forall c, In c t -> c <> newline) -> forall room cur r, (length t + 1 <= room)%nat ->
  gets room cur (t ++ newline :: r) = (rev cur ++ t ++ [newline]) :: gets 511 [] r.
Proof.
  induction t as [|c t IH]; intros H room cur r L; cbn [app gets].
  - rewrite Ascii.eqb_refl. reflexivity.
  - cbn [List.length] in L. destruct (Ascii.eqb_spec c newline) as [E|E]; [exfalso; apply (H c); [now left|exact E]|].
    destruct (Nat.eqb_spec room 1); [lia|]. cbn [orb]. rewrite IH; [|intros x Hx; apply H; now right|lia]. cbn [rev]. now rewrite <- !app_assoc.
Qed.
Lemma lines_concat (ls : list text) : (forall l, In l ls -> exists t, l = t ++ [newline] /\ (forall c, In c t -> c <> newline) /\ (length l <= 511)%nat) ->
  lines (List.concat ls) = ls.
Proof.
  unfold lines. induction ls as [|l ls IH]; intros H; [reflexivity|]. cbn [List.concat].
  destruct (H l (or_introl eq_refl)) as (t & -> & N & L). rewrite app_length in L. cbn [List.length] in L.
  rewrite <- app_assoc. cbn [app]. rewrite gets_line by (exact N || lia). cbn [rev app]. rewrite IH; [reflexivity|]. intros x Hx. apply H. now right.
Qed.
Lemma join_chars c d row : In c (join d row) -> In c d \/ exists t, In t row /\ In c t.
Proof.
  induction row as [|t row IH]; [intros []|]. destruct row as [|t2 row].
  - cbn [join]. intros H. right. exists t. split; [now left|exact H].
  - intros H. assert (H' : In c (t ++ d ++ join d (t2 :: row))) by exact H. apply in_app_or in H'. destruct H' as [H'|H']; [right; exists t; split; [now left|exact H']|].
    apply in_app_or in H'. destruct H' as [H'|H']; [now left|]. destruct (IH H') as [X|(u & U1 & U2)]; [now left|]. right. exists u. split; [now right|exact U2].
Qed.
Lemma line_chars c d row : delimiter d -> Forall cell_text row -> In c (join d row) -> c <> nl /\ c <> ascii_of_nat 0.
Proof.
  intros (_ & D) C H. apply join_chars in H. destruct H as [H|(t & T & H)].
  - apply D in H. destruct H as [->|[->| ->]]; split; discriminate.
  - rewrite Forall_forall in C. destruct (C t T) as (_ & X). destruct (X c H) as (_ & A & B). tauto.
Qed.
Lemma table_lines d rows : delimiter d -> Forall (Forall cell_text) rows -> Forall (fun r => length (line d r) <= 511)%nat rows ->
  lines (table_text d rows) = map (line d) rows.
Proof.
  intros D C L. apply lines_concat. intros l H. apply in_map_iff in H. destruct H as (row & <- & R). exists (join d row).
  rewrite Forall_forall in C, L. split; [reflexivity|]. split; [|exact (L row R)]. intros c Hc. exact (proj1 (line_chars c d row D (C row R) Hc)).
Qed.
Lemma line_c d row : delimiter d -> Forall cell_text row -> c_line (line d row) = line d row.
Proof.
  intros D C. unfold c_line. apply take_all. intros c H. unfold line in H. apply in_app_or in H. apply negb_true_iff, Ascii.eqb_neq.
  destruct H as [H|[<-|[]]]; [|discriminate]. exact (proj2 (line_chars c d row D C H)).
Qed.

(** ** Columns of a line: [at_row d l row]: from [l] on there are the columns [row] *)
Definition at_row (d l : text) (row : list text) : Prop := drop_while is_sep l = match row with [] => [] | _ => line d row end.
Lemma head_cell (t : text) : cell_text t -> exists c r, t = c :: r /\ is_sep c = false.
Proof. intros (N & H). destruct t as [|c r]; [contradiction|]. exists c, r. split; [reflexivity|]. apply not_sep, H. now left. Qed.
Lemma at_line d row : Forall cell_text row -> row <> [] -> at_row d (line d row) row.
Proof.
  intros C N. destruct row as [|t row]; [contradiction|]. unfold at_row. inversion C; subst. destruct (head_cell t H1) as (c & r & -> & E).
  apply drop_stop. unfold line. destruct row; cbn [join app]; exact E.
Qed.
Definition after_cell (d : text) (row : list text) : text := match row with [] => [nl] | _ => d ++ line d row end.
Lemma after_ends d row : delimiter d -> ends (after_cell d row).
Proof. intros (N & D). destruct row; cbn [after_cell ends]; [now right|]. destruct d as [|x d]; [contradiction|]. cbn [app]. left. apply D. now left. Qed.
Lemma line_split d t row : line d (t :: row) = t ++ after_cell d row.
Proof. destruct row as [|u row]; [reflexivity|]. unfold line, after_cell. cbn [join]. now rewrite <- !app_assoc. Qed.
Lemma next_cell d t row : delimiter d -> Forall cell_text (t :: row) -> at_row d (drop_while (fun c => negb (is_sep c)) (t ++ after_cell d row)) row.
Proof.
  intros D C. inversion C as [|? ? C1 C2]; subst. rewrite drop_app by (intros c Hc; apply negb_true_iff, not_sep, (proj2 C1 c Hc)).
  destruct row as [|u row]; [reflexivity|]. cbn [after_cell]. destruct D as (N & D). destruct d as [|x d]; [contradiction|]. cbn [app].
  pose proof (D x (or_introl eq_refl)) as X. apply is_sep_spec in X. cbn [drop_while]. rewrite X. cbn [negb].
  unfold at_row. change (x :: d ++ line (x :: d) (u :: row)) with ((x :: d) ++ line (x :: d) (u :: row)).
  rewrite drop_app by (intros c Hc; apply is_sep_spec, D, Hc). exact (at_line (x :: d) (u :: row) C2 ltac:(discriminate)).
Qed.

(** ** Numbers *)
Lemma whole_digits t n : whole t = Some n -> t <> [] /\ (forall c, In c t -> is_digit c = true) /\ n = fold_left (fun n c => 10 * n + digit_value c) t 0.
Proof.
  unfold whole. destruct (forallb is_digit t) eqn:E; cbn [andb]; [|discriminate]. destruct t as [|c t]; [discriminate|]. cbn [negb].
  intros H. injection H as <-. split; [discriminate|]. split; [|reflexivity]. now apply forallb_forall.
Qed.
Lemma split_join_one c t : join [c] (split_on c t) = t.
Proof.
  induction t as [|x t IH]; [reflexivity|]. cbn [split_on]. destruct (Ascii.eqb_spec x c) as [->|N].
  - destruct (split_on c t) as [|h l] eqn:E; [destruct t as [|y t]; cbn [split_on] in E; [discriminate|destruct (Ascii.eqb y c); [discriminate|destruct (split_on c t); discriminate]]|].
    change (join [c] ([] :: h :: l)) with (c :: join [c] (h :: l)). now rewrite IH.
  - destruct (split_on c t) as [|h l] eqn:E; [destruct t as [|y t]; cbn [split_on] in E; [discriminate|destruct (Ascii.eqb y c); [discriminate|destruct (split_on c t); discriminate]]|].
    destruct l as [|h2 l]; cbn [join app] in *; now rewrite IH.
Qed.
Lemma plain_chars t m q : plain_number t = Some (m, q) -> t <> [] /\ (forall c, In c t -> is_digit c = true \/ c = "."%char) /\
  (q = O -> whole t = Some m).
Proof.
  unfold plain_number. pose proof (split_join_one "."%char t) as J. destruct (split_on "."%char t) as [|a [|b [|b2 l]]]; try discriminate.
  - destruct (whole a) as [n|] eqn:W; [|discriminate]. intros H. injection H as <- <-. cbn [join] in J. subst t. destruct (whole_digits a n W) as (N & D & _).
    split; [exact N|]. split; [intros c Hc; left; now apply D|intros _; exact W].
  - destruct (whole a) as [na|] eqn:Wa; [|discriminate]. destruct (whole b) as [nb|] eqn:Wb; [|discriminate]. destruct (whole (a ++ b)) as [n|]; [|discriminate].
    intros H. injection H as <- <-. cbn [join] in J. subst t. destruct (whole_digits a na Wa) as (Na & Da & _). destruct (whole_digits b nb Wb) as (Nb & Db & _).
    split; [destruct a; [contradiction|discriminate]|]. split.
    + intros c Hc. apply in_app_or in Hc. destruct Hc as [Hc|Hc]; [left; now apply Da|]. cbn [app] in Hc. destruct Hc as [<-|Hc]; [now right|]. left. now apply Db.
    + intros L. destruct b; [contradiction|discriminate].
Qed.
Lemma number_cases t m q : number t = Some (m, q) ->
  (exists r n, t = "-"%char :: r /\ plain_number r = Some (n, q) /\ m = - n) \/
  (plain_number t = Some (m, q) /\ match t with [] => False | c :: _ => is_digit c = true \/ c = "."%char end).
Proof.
  intros H. assert (Q : (exists r, t = "-"%char :: r) \/ number t = plain_number t).
  { destruct t as [|c r]; [now right|]. destruct (Ascii.ascii_dec c "-"%char) as [->|N]; [left; now exists r|]. right.
    destruct c as [[] [] [] [] [] [] [] []]; try reflexivity. exfalso. apply N. reflexivity. }
  destruct Q as [(r & ->)|E].
  - left. cbn [number] in H. destruct (plain_number r) as [[n p]|] eqn:P; [|discriminate]. injection H as <- <-. exists r, n. auto.
  - right. rewrite E in H. split; [exact H|]. destruct (plain_chars t m q H) as (N & C & _). destruct t as [|c t]; [contradiction|]. apply C. now left.
Qed.
Definition number_char (c : ascii) : bool := is_digit c || Ascii.eqb c "."%char || Ascii.eqb c "-"%char.
Lemma number_chars_ok t m q : number t = Some (m, q) -> t <> [] /\ forall c, In c t -> number_char c = true.
Proof.
  intros H. destruct (number_cases t m q H) as [(r & n & -> & P & _)|(P & _)]; destruct (plain_chars _ _ _ P) as (N & C & _).
  - split; [discriminate|]. intros c [<-|Hc]; [reflexivity|]. unfold number_char. destruct (C c Hc) as [-> | ->]; [reflexivity|]. now rewrite orb_true_r.
  - split; [exact N|]. intros c Hc. unfold number_char. destruct (C c Hc) as [-> | ->]; [reflexivity|]. now rewrite orb_true_r.
Qed.
Lemma number_char_cell c : number_char c = true -> ~ separator c /\ c <> nl /\ c <> ascii_of_nat 0.
Proof.
  intros H. split; [intros [->|[->| ->]]; discriminate H|]. split; intros ->; discriminate H.
Qed.
Lemma number_cell t m q : number t = Some (m, q) -> cell_text t.
Proof. intros H. destruct (number_chars_ok t m q H) as (N & C). split; [exact N|]. intros c Hc. apply number_char_cell, C, Hc. Qed.
Lemma decimal_cell t x : decimal t = Some x -> cell_text t.
Proof. unfold decimal. destruct (number t) as [[m q]|] eqn:E; [|discriminate]. intros _. now apply (number_cell t m q). Qed.

Lemma is_dig_digit c : is_dig c = is_digit c. Proof. reflexivity. Qed.
Lemma dig_val_digit c : is_digit c = true -> dig_val c = digit_value c.
Proof. unfold is_digit, dig_val, digit_value. rewrite andb_true_iff, !Nat.leb_le. intros H. rewrite Nat2Z.inj_sub by lia. reflexivity. Qed.
Lemma digits_fold t : (forall c, In c t -> is_digit c = true) -> forall a, fold_left (fun n c => n * 10 + dig_val c) t a = fold_left (fun n c => 10 * n + digit_value c) t a.
Proof.
  induction t as [|c t IH]; intros H a; [reflexivity|]. cbn [fold_left]. rewrite dig_val_digit by (apply H; now left).
  rewrite IH by (intros x Hx; apply H; now right). f_equal. lia.
Qed.
Lemma ends_not_digit rest : ends rest -> match rest with [] => True | c :: _ => is_dig c = false end.
Proof. destruct rest as [|c rest]; [auto|]. intros [[->|[->| ->]]| ->]; reflexivity. Qed.
Lemma scan_digits t rest n : whole t = Some n -> ends rest -> take_while is_dig (t ++ rest) = t /\ fold_left (fun n c => n * 10 + dig_val c) t 0 = n /\ t <> [].
Proof.
  intros W E. destruct (whole_digits t n W) as (N & D & V). split; [apply take_app; [exact D|apply ends_not_digit, E]|]. split; [|exact N].
  rewrite digits_fold by exact D. now symmetry.
Qed.
Lemma scan_d_number t rest n : number t = Some (n, O) -> ends rest -> in_signedb 32 n = true -> scan_d (t ++ rest) = Ok (Some n).
Proof.
  intros H E R. destruct (number_cases t n O H) as [(r & m & -> & P & ->)|(P & Hd)].
  - destruct (plain_chars _ _ _ P) as (_ & _ & W). destruct (scan_digits r rest m (W eq_refl) E) as (S1 & S2 & S3).
    unfold scan_d. change (drop_while is_space (("-"%char :: r) ++ rest)) with ("-"%char :: r ++ rest). cbv iota beta zeta. rewrite S1. destruct r as [|c r]; [contradiction|]. rewrite S2, R. reflexivity.
  - destruct (plain_chars _ _ _ P) as (_ & _ & W). specialize (W eq_refl). destruct (scan_digits t rest n W E) as (S1 & S2 & S3). destruct (whole_digits t n W) as (_ & D & _).
    destruct t as [|c t]; [contradiction|]. pose proof (D c (or_introl eq_refl)) as DC.
    assert (X : forall (k : bool * text -> outcome (option Z)), k (match drop_while is_space ((c :: t) ++ rest) with "-"%char :: r => (true, r) | "+"%char :: r => (false, r) | _ => (false, drop_while is_space ((c :: t) ++ rest)) end) = k (false, (c :: t) ++ rest)).
    { intros k. f_equal. rewrite drop_stop.
      - cbn [app]. destruct c as [[] [] [] [] [] [] [] []]; try reflexivity; discriminate DC.
      - cbn [app]. unfold is_digit in DC. unfold is_space. rewrite andb_true_iff, !Nat.leb_le in DC. cbv zeta. destruct (Nat.leb_spec (nat_of_ascii c) 13), (Nat.eqb_spec (nat_of_ascii c) 32); lia. }
    unfold scan_d. cbv zeta. rewrite (X (fun '(neg, t2) => _)). cbv iota beta. rewrite S1. rewrite S2, R. reflexivity.
Qed.

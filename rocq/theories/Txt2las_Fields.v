(** txt2las: what the letters do to a point, and a whole line. *)
From Coq Require Import ZArith List Bool String Ascii Lia Reals Lra.
Import ListNotations.
From Flocq Require Import Core.
From Verif Require Import Outcome Bytes Float64 Float64_Proofs Classif_Model Header_Model Point_Model Point_Spec Point_Api Point_Proofs Coord_Api Coord_Proofs
  Cols_Spec Txt_Spec Txt_Proofs Txt2las_Model Txt2las_Spec Txt2las_Text.
Local Open Scope list_scope.
Local Open Scope Z_scope.
Local Notation length := List.length (only parsing).

Definition table_letters : list (ascii * (attr * Z * Z)) :=
  [("i", (AIntensity, 0, 65535)); ("a", (AScanAngleRank, -128, 127)); ("n", (ANumberOfReturns, 0, 7)); ("r", (AReturnNumber, 0, 7));
   ("c", (AClassification, 0, 255)); ("u", (AUserData, 0, 255)); ("p", (APointSourceId, 0, 65535)); ("e", (AFlightLineEdge, 0, 1)); ("d", (AScanDirection, 0, 1));
   ("R", (ARed, 0, 65535)); ("G", (AGreen, 0, 65535)); ("B", (ABlue, 0, 65535))]%char.
Lemma stored_cases c r : stored_letter c = Some r -> In (c, r) table_letters.
Proof. destruct c as [[] [] [] [] [] [] [] []]; intros H; try discriminate H; injection H as <-; cbn; tauto. Qed.
Lemma double_cases c ax : double_letter c = Some ax -> In (c, ax) [("x", AxX); ("y", AxY); ("z", AxZ)]%char.
Proof. destruct c as [[] [] [] [] [] [] [] []]; intros H; try discriminate H; injection H as <-; cbn; tauto. Qed.
Lemma stored_apart c b a a' lo hi lo' hi' : stored_letter c = Some (a, lo, hi) -> stored_letter b = Some (a', lo', hi') -> c <> b ->
  is_color a = false -> is_color a' = false -> overlapping a a' = false.
Proof.
  intros H1 H2 N I1 I2. apply stored_cases in H1. apply stored_cases in H2. cbn [table_letters In] in H1, H2.
  repeat (destruct H1 as [H1|H1]; [injection H1 as <- <- <- <-; try discriminate I1; repeat (destruct H2 as [H2|H2]; [injection H2 as <- <- <- <-; try discriminate I2; try reflexivity; exfalso; apply N; reflexivity|]); contradiction|]). contradiction.
Qed.
Lemma stored_present f c a lo hi : stored_letter c = Some (a, lo, hi) -> is_color a = false ->
  exists s w sg, attr_range f a = Some (s, w, sg) /\ (forall n, lo <= n <= hi -> value_fits sg w n).
Proof.
  intros H I. apply stored_cases in H. cbn [table_letters In] in H.
  repeat (destruct H as [H|H]; [injection H as <- <- <- <-; try discriminate I; (eexists _, _, _; split; [reflexivity|]; intros n Hn; unfold value_fits, in_signed, in_unsigned; cbn; lia)|]). contradiction.
Qed.

(** ** The state while a line is read *)
Definition numv (t : text) : Z := match number t with Some (n, _) => n | None => 0 end.
Definition is_real (t : text) (v : f64) : Prop := exists x, decimal t = Some x /\ f64_fin v = true /\ f64_R v = nearest_double x.
Definition real_of (s : scan) (c : ascii) : f64 :=
  match c with "x" => x_of (s_xyz s) | "y" => y_of (s_xyz s) | "z" => z_of (s_xyz s) | _ => s_time s end%char.
Definition col_value (c : color) (l : ascii) : Z := match l with "R" => c_red c | "G" => c_green c | _ => c_blue c end%char.
Definition letter_value (s : scan) (c : ascii) (a : attr) : outcome Z := if is_color a then Ok (col_value (s_col s) c) else api_get a (s_pt s).
Definition inv (h : header) (n : nat) (m : ascii -> Z) (P : ascii -> f64 -> Prop) (s : scan) : Prop :=
  point_wf (s_pt s) /\ p_hdr (s_pt s) = h /\ length (p_data (s_pt s)) = n /\
  (forall c a lo hi, stored_letter c = Some (a, lo, hi) -> letter_value s c a = Ok (m c) /\ lo <= m c <= hi) /\
  (forall c, In c ["x"; "y"; "z"; "t"]%char -> P c (real_of s c)).
Definition updm (m : ascii -> Z) (c : ascii) (t : text) : ascii -> Z := fun b => if Ascii.eqb c b then numv t else m b.
Definition updP (P : ascii -> f64 -> Prop) (c : ascii) (t : text) : ascii -> f64 -> Prop := fun b => if Ascii.eqb c b then is_real t else P b.

(** what a scanner needs of a column *)
Definition takes (c : ascii) (t : text) : Prop :=
  match stored_letter c with
  | Some (a, lo, hi) => exists n, number t = Some (n, O) /\ lo <= n <= hi
  | None => (In c ["x"; "y"; "z"; "t"]%char /\ exists x, decimal t = Some x /\ (Rabs x <= bpow radix2 1000)%R) \/ (c = "s"%char /\ cell_text t)
  end.
Lemma takes_cell c t : takes c t -> cell_text t.
Proof.
  unfold takes. destruct (stored_letter c) as [[[a lo] hi]|].
  - intros (n & N & _). now apply (number_cell t n O).
  - intros [(_ & x & D & _)|(_ & C)]; [now apply (decimal_cell t x)|exact C].
Qed.
Lemma letter_known c t : takes c t -> is_letter c = true.
Proof.
  unfold takes. destruct (stored_letter c) as [r|] eqn:E.
  - intros _. apply stored_cases in E. cbn [table_letters In] in E. repeat (destruct E as [E|E]; [injection E as <- _; reflexivity|]). contradiction.
  - intros [([<-|[<-|[<-|[<-|[]]]]] & _)|(-> & _)]; reflexivity.
Qed.

Section TAKE.
Variables (lf flt : text -> option f64) (h : header) (n : nat).
Hypothesis (RD : reads_doubles lf) (RF : reads_floats flt).

Lemma put_ok m P s c a lo hi v : inv h n m P s -> stored_letter c = Some (a, lo, hi) -> is_color a = false -> lo <= v <= hi ->
  forall m', m' c = v -> (forall b, b <> c -> m' b = m b) ->
  exists p, quiet (s_pt s) (api_set a v (s_pt s)) = Ok p /\ inv h n m' P (with_pt s p).
Proof.
  intros (W & Hh & L & V & Rl) SL IC Hv m' M1 M2. destruct (stored_present (p_format (s_pt s)) c a lo hi SL IC) as (st & w & sg & AR & FT).
  destruct (set_get_frame (s_pt s) a v st w sg W IC AR (FT v Hv)) as (p & E & W' & H' & L' & G & FR & _).
  exists p. rewrite E. split; [reflexivity|]. split; [exact W'|]. cbn [with_pt s_pt]. split; [now rewrite H'|]. split; [now rewrite L'|]. split; [|exact Rl].
  intros b a' lo' hi' SB. destruct (Ascii.ascii_dec b c) as [->|N].
  - rewrite SL in SB. injection SB as <- <- <-. rewrite M1. split; [|exact Hv]. unfold letter_value. rewrite IC. exact G.
  - rewrite M2 by exact N. destruct (V b a' lo' hi' SB) as (V1 & V2). split; [|exact V2]. unfold letter_value in *. cbn [with_pt s_col s_pt]. destruct (is_color a') eqn:IC'; [exact V1|].
    rewrite <- V1. apply FR; [exact (stored_apart c b a a' lo hi lo' hi' SL SB (fun e => N (eq_sym e)) IC IC')|].
    destruct (stored_present (p_format (s_pt s)) b a' lo' hi' SB IC') as (? & ? & ? & X & _). congruence.
Qed.
Lemma real_ok m P s c t v f : inv h n m P s -> In c ["x"; "y"; "z"; "t"]%char -> is_real t v ->
  s_pt f = s_pt s -> s_col f = s_col s -> real_of f c = v -> (forall b, In b ["x"; "y"; "z"; "t"]%char -> b <> c -> real_of f b = real_of s b) ->
  inv h n (updm m c t) (updP P c t) f.
Proof.
  intros (W & Hh & L & V & Rl) IN IR E1 E2 E3 E4. split; [now rewrite E1|]. split; [now rewrite E1|]. split; [now rewrite E1|]. split.
  - intros b a lo hi SB. unfold updm. destruct (Ascii.eqb_spec c b) as [<-|N]; [exfalso; apply stored_cases in SB; cbn in IN, SB; intuition congruence|].
    unfold letter_value. rewrite E1, E2. exact (V b a lo hi SB).
  - intros b Hb. unfold updP. destruct (Ascii.eqb_spec c b) as [<-|N]; [now rewrite E3|]. rewrite E4 by (exact Hb || congruence). exact (Rl b Hb).
Qed.
Lemma color_ok m P s c a lo hi t k : inv h n m P s -> stored_letter c = Some (a, lo, hi) -> is_color a = true -> number t = Some (k, O) -> lo <= k <= hi ->
  forall q, col_value q c = k -> (forall b a' lo' hi', stored_letter b = Some (a', lo', hi') -> is_color a' = true -> b <> c -> col_value q b = col_value (s_col s) b) ->
  inv h n (updm m c t) (updP P c t) (with_col s q).
Proof.
  intros (W & Hh & L & V & Rl) SL IC NT Hk q Q1 Q2. split; [exact W|]. split; [exact Hh|]. split; [exact L|]. split.
  - intros b a' lo' hi' SB. unfold updm. destruct (Ascii.eqb_spec c b) as [<-|N].
    + rewrite SL in SB. injection SB as <- <- <-. unfold letter_value, numv. rewrite IC, NT. cbn [with_col s_col]. rewrite Q1. auto.
    + destruct (V b a' lo' hi' SB) as (V1 & V2). split; [|exact V2]. unfold letter_value in *. cbn [with_col s_col s_pt]. destruct (is_color a') eqn:IC'; [|exact V1].
      rewrite (Q2 b a' lo' hi' SB IC') by congruence. exact V1.
  - intros b Hb. unfold updP. destruct (Ascii.eqb_spec c b) as [<-|N]; [exfalso; apply stored_cases in SL; cbn in Hb, SL; intuition congruence|]. exact (Rl b Hb).
Qed.
Lemma updm_same m c t k : number t = Some (k, O) -> updm m c t c = k.
Proof. intros H. unfold updm, numv. now rewrite Ascii.eqb_refl, H. Qed.
Lemma updm_other m c t b : b <> c -> updm m c t b = m b.
Proof. intros N. unfold updm. destruct (Ascii.eqb_spec c b); [congruence|reflexivity]. Qed.
Lemma inv_P m P s c t : inv h n m P s -> (exists r, stored_letter c = Some r) -> inv h n m (updP P c t) s.
Proof.
  intros (W & Hh & L & V & Rl) (r & SL). repeat (split; [assumption|]). intros b Hb. unfold updP. destruct (Ascii.eqb_spec c b) as [<-|N]; [|exact (Rl b Hb)].
  exfalso. apply stored_cases in SL. cbn in Hb, SL. intuition congruence.
Qed.
Lemma signed32 k : -65536 <= k <= 65536 -> in_signedb 32 k = true.
Proof. intros H. unfold in_signedb. change (2 ^ (32 - 1)) with 2147483648. apply andb_true_iff. rewrite Z.leb_le, Z.ltb_lt. lia. Qed.
Lemma flag_id k : 0 <= k <= 1 -> (if k =? 0 then 0 else 1) = k.
Proof. intros H. destruct (Z.eqb_spec k 0); lia. Qed.
Lemma signed8 k : -128 <= k <= 127 -> to_signed 8 k = k.
Proof. intros H. apply to_signed_id'; [lia|]. unfold in_signed. change (2 ^ (8 - 1)) with 128. lia. Qed.

Lemma take_ok m P s c t rest : inv h n m P s -> takes c t -> ends rest ->
  exists s', take_field lf flt c (t ++ rest) s = Ok (Some s') /\ inv h n (updm m c t) (updP P c t) s'.
Proof.
  intros I T E. unfold takes in T. destruct (stored_letter c) as [[[a lo] hi]|] eqn:SL.
  - destruct T as (k & NT & Hk).
    assert (IP : inv h n m (updP P c t) s) by (apply inv_P; [exact I|eauto]).
    assert (PUT : is_color a = false -> exists p, quiet (s_pt s) (api_set a k (s_pt s)) = Ok p /\ inv h n (updm m c t) (updP P c t) (with_pt s p)).
    { intros IC. apply (put_ok m (updP P c t) s c a lo hi k IP SL IC Hk); [now apply updm_same|intros b Hb; now apply updm_other]. }
    assert (CQ : forall q, is_color a = true -> col_value q c = k -> (forall b a' lo' hi', stored_letter b = Some (a', lo', hi') -> is_color a' = true -> b <> c -> col_value q b = col_value (s_col s) b) ->
      inv h n (updm m c t) (updP P c t) (with_col s q)) by (intros q IC; apply (color_ok m P s c a lo hi t k I SL IC NT Hk)).
    assert (KB : -65536 <= k <= 65536) by (apply stored_cases in SL; cbn [table_letters In] in SL; repeat (destruct SL as [SL|SL]; [injection SL as _ _ <- <-; lia|]); contradiction).
    pose proof (scan_d_number t rest k NT E (signed32 k KB)) as SD.
    destruct (RF t rest k NT E ltac:(change (2 ^ 24) with 16777216; lia)) as (v & FL & Fv & Rv).
    assert (TI : f64_to_int32 v = Ok k) by (rewrite (to_int32_ok v k Fv Rv), (signed32 k KB); reflexivity).
    pose proof (stored_cases _ _ SL) as SC. cbn [table_letters In] in SC.
    repeat (destruct SC as [SC|SC]; [injection SC as <- <- <- <-; cbn [is_color] in PUT, CQ; unfold take_field; rewrite ?SD, ?FL; cbn [obind]; rewrite ?TI; cbn [obind];
       first [destruct (PUT eq_refl) as (p & Q & IV); cbn [api_set] in Q; rewrite ?Z.mod_small by lia; rewrite ?signed8 by lia; rewrite ?flag_id by lia; rewrite Q; cbn [obind]; eexists; split; [reflexivity|exact IV]
             |eexists; split; [reflexivity|]; apply CQ; [reflexivity|cbn [col_value c_red c_green c_blue]; apply Z.mod_small; lia|];
              intros b a' lo' hi' SB IC' N; apply stored_cases in SB; cbn [table_letters In] in SB;
              repeat (destruct SB as [SB|SB]; [injection SB as <- <- <- <-; try discriminate IC'; first [reflexivity|exfalso; apply N; reflexivity]|]); contradiction]|]).
    contradiction.
  - destruct T as [(IN & x & D & B)|(-> & C)].
    + destruct (RD t rest x D E B) as (v & LF & Fv & Rv). assert (IR : is_real t v) by (exists x; auto).
      destruct IN as [<-|[<-|[<-|[<-|[]]]]]; unfold take_field; rewrite LF; cbn [obind]; (eexists; split; [reflexivity|]);
        (eapply real_ok; [exact I|cbn; tauto|exact IR|reflexivity|reflexivity|reflexivity|]);
        (intros b [<-|[<-|[<-|[<-|[]]]]] N; try reflexivity; exfalso; apply N; reflexivity).
    + exists s. split; [reflexivity|]. destruct I as (W & Hh & L & V & Rl). repeat (split; [assumption|]). split.
      * intros b a lo hi SB. rewrite updm_other; [exact (V b a lo hi SB)|]. intros ->. discriminate SB.
      * intros b Hb. unfold updP. destruct (Ascii.eqb_spec "s"%char b) as [<-|N]; [exfalso; cbn in Hb; intuition congruence|exact (Rl b Hb)].
Qed.

(** ** A line *)
Definition afterm (m : ascii -> Z) (p : text) (row : list text) : ascii -> Z := fun c => match last_text c p row with Some t => numv t | None => m c end.
Definition afterP (P : ascii -> f64 -> Prop) (p : text) (row : list text) : ascii -> f64 -> Prop := fun c => match last_text c p row with Some t => is_real t | None => P c end.
Lemma inv_ext m m' (P P' : ascii -> f64 -> Prop) s : (forall c, m c = m' c) -> (forall c v, P c v -> P' c v) -> inv h n m P s -> inv h n m' P' s.
Proof.
  intros EM EP (W & Hh & L & V & Rl). repeat (split; [assumption|]). split; [|intros c Hc; apply EP, Rl, Hc]. intros c a lo hi SL. rewrite <- EM. exact (V c a lo hi SL).
Qed.
Lemma loop_ok d : delimiter d -> forall p row extra l m P s, Forall2 takes p row -> Forall cell_text extra -> at_row d l (row ++ extra) -> inv h n m P s ->
  exists s', parse_loop lf flt p l s = Ok (true, s') /\ inv h n (afterm m p row) (afterP P p row) s'.
Proof.
  intros D. induction p as [|c p IH]; intros row extra l m P s F X A I; inversion F as [|? t ? row' T F']; subst.
  - exists s. split; [reflexivity|]. exact I.
  - assert (CR : Forall cell_text ((t :: row') ++ extra)).
    { apply Forall_app. split; [|exact X]. clear - F. induction F as [|a b l l' T F IH]; constructor; [exact (takes_cell a b T)|exact IH]. }
    cbn [parse_loop]. rewrite (letter_known c t T). unfold at_row in A. cbn [app] in A, CR. rewrite A, line_split.
    destruct (take_ok m P s c t (after_cell d (row' ++ extra)) I T (after_ends d _ D)) as (s1 & E1 & I1).
    pose proof (next_cell d t (row' ++ extra) D CR) as NX.
    destruct (takes_cell c t T) as (NE & _). destruct t as [|ch t]; [contradiction|]. cbn [app] in *. rewrite E1. cbn [obind].
    destruct (IH row' extra _ _ _ s1 F' X NX I1) as (s2 & E2 & I2). exists s2. split; [exact E2|].
    eapply inv_ext; [| |exact I2].
    + intros b. unfold afterm, updm. cbn [last_text]. destruct (last_text b p row'); [reflexivity|]. destruct (Ascii.eqb c b); reflexivity.
    + intros b v. unfold afterP, updP. cbn [last_text]. destruct (last_text b p row'); [auto|]. destruct (Ascii.eqb c b); auto.
Qed.
End TAKE.

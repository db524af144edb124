(** The recursive splitting of the chipper. *)
From Coq Require Import ZArith List Bool Lia Permutation Sorting.Sorted.
Import ListNotations.
From Verif Require Import Outcome Bytes Float64 Float64_Proofs Header_Model Cached_Model Cached_Proofs Summary_Proofs Chipper_Model Chipper_Spec Chipper_Lists Chipper_Proofs.
Local Open Scope Z_scope.
Local Notation length := List.length (only parsing).

(** ** State access *)
Definition slot_dec (a b : slot) : {a = b} + {a <> b}. Proof. decide equality. Defined.
Lemma vec_set c s v t : vec (set_vec c s v) t = if slot_dec t s then v else vec c t.
Proof. destruct s, t; reflexivity. Qed.
Lemma vec_set_same c s v : vec (set_vec c s v) s = v. Proof. now destruct s. Qed.
Lemma vec_set_other c s v t : t <> s -> vec (set_vec c s v) t = vec c t. Proof. intros N. destruct s, t; (reflexivity || now elim N). Qed.
Lemma vec_set_dir c s d t : vec (set_dir c s d) t = vec c t. Proof. destruct s, t; reflexivity. Qed.
Lemma dir_set_vec c s v t : dirof (set_vec c s v) t = dirof c t. Proof. destruct s, t; reflexivity. Qed.
Lemma dir_set_same c s d : dirof (set_dir c s d) s = d. Proof. now destruct s. Qed.
Lemma dir_set_other c s d t : t <> s -> dirof (set_dir c s d) t = dirof c t. Proof. intros N. destruct s, t; (reflexivity || now elim N). Qed.
Lemma blocks_set_vec c s v : c_blocks (set_vec c s v) = c_blocks c. Proof. now destruct s. Qed.
Lemma blocks_set_dir c s d : c_blocks (set_dir c s d) = c_blocks c. Proof. now destruct s. Qed.

(** ** The invariant *)
Section Split.
Variable pts : list (f64 * f64).
Definition coord (d : dir) (i : Z) : f64 := match d with DirX => x_at pts i | DirY => y_at pts i | DirNone => f64_zero end.
Definition crossed (d e : dir) : Prop := (d = DirX /\ e = DirY) \/ (d = DirY /\ e = DirX).
Definition placed (d : dir) (v : list ptref) (l h : Z) : Prop := forall i, l <= i < h -> t_pos v.[i] = coord d (t_id v.[i]) /\ finr v.[i].
Record good (c : chip) (v1 v2 : slot) (l h : Z) : Prop := mkGood {
  g_lo : 0 <= l < h;
  g_1 : h <= lenZ (vec c v1);
  g_2 : h <= lenZ (vec c v2);
  g_link : linked (vec c v1) (vec c v2) l h;
  g_s1 : sorted_on (vec c v1) l h;
  g_s2 : sorted_on (vec c v2) l h;
  g_p1 : placed (dirof c v1) (vec c v1) l h;
  g_p2 : placed (dirof c v2) (vec c v2) l h;
  g_dir : crossed (dirof c v1) (dirof c v2) }.
Lemma good_sym c v1 v2 l h : good c v1 v2 l h -> good c v2 v1 l h.
Proof. intros [? ? ? ? ? ? ? ? D]. constructor; auto. - now apply linked_sym. - destruct D; [right|left]; tauto. Qed.

Definition same_frame (c c' : chip) (l h : Z) : Prop :=
  forall s, length (vec c' s) = length (vec c s) /\ forall i, 0 <= i -> ~ l <= i < h -> (vec c' s).[i] = (vec c s).[i].
Lemma frame_refl c l h : same_frame c c l h.
Proof. intros s. auto. Qed.
Lemma frame_trans c1 c2 c3 l h : same_frame c1 c2 l h -> same_frame c2 c3 l h -> same_frame c1 c3 l h.
Proof. intros A B s. destruct (A s) as (A1 & A2), (B s) as (B1 & B2). split; [congruence|]. intros i Hi N. rewrite B2, A2; auto. Qed.
Lemma frame_wider c c' l h l' h' : same_frame c c' l h -> l' <= l -> h <= h' -> same_frame c c' l' h'.
Proof. intros A Hl Hh s. destruct (A s) as (A1 & A2). split; [exact A1|]. intros i Hi N. apply A2; lia. Qed.
Lemma good_frame c c' v1 v2 l h l0 h0 : good c v1 v2 l h -> same_frame c c' l0 h0 -> h <= l0 \/ h0 <= l ->
  dirof c' v1 = dirof c v1 -> dirof c' v2 = dirof c v2 -> good c' v1 v2 l h.
Proof.
  intros G F D E1 E2. destruct (F v1) as (A1 & A2), (F v2) as (B1 & B2). destruct G as [G1 G2 G3 GL S1 S2 P1 P2 CR].
  assert (V1 : forall i, l <= i < h -> (vec c' v1).[i] = (vec c v1).[i]) by (intros; apply A2; lia).
  assert (V2 : forall i, l <= i < h -> (vec c' v2).[i] = (vec c v2).[i]) by (intros; apply B2; lia).
  constructor; rewrite ?A1, ?B1, ?E1, ?E2; auto.
  - intros i Hi. destruct (GL i Hi) as (X & Y & Z0). rewrite V1 by exact Hi. rewrite V2 by lia. auto.
  - intros i j Hi Hij Hj. rewrite !V1 by lia. now apply S1.
  - intros i j Hi Hij Hj. rewrite !V2 by lia. now apply S2.
  - intros i Hi. rewrite V1 by lia. now apply P1.
  - intros i Hi. rewrite V2 by lia. now apply P2.
Qed.

(** ** RearrangeNarrow *)
Variable srt : sorter.
Hypothesis srt_ok : is_sort srt.
Variable use_sort : bool.

Lemma placed_finr d v l h : placed d v l h -> Forall finr (sub v l h).
Proof. intros P. apply Forall_forall. intros x Hx. unfold sub in Hx. apply in_map_iff in Hx. destruct Hx as (i & <- & Hi). apply zrange_In in Hi. apply (P i Hi). Qed.
Lemma sorted_SS v l h : sorted_on v l h -> StronglySorted ple (sub v l h).
Proof. intros S. apply (nth_SS _ _ ref0). intros i j Hi Hj. rewrite sub_length in Hj. rewrite !sub_nth by lia. apply S; lia. Qed.

Lemma rearrange_ok c wide narrow spare l center h :
  wide <> narrow -> wide <> spare -> narrow <> spare ->
  good c wide narrow l h -> l < center < h -> (use_sort = false -> h <= lenZ (vec c spare)) ->
  let act := if use_sort then narrow else spare in
  exists c1, rearrange_narrow srt use_sort c wide narrow spare l center (h - 1) = Ok c1 /\
    same_frame c c1 l h /\ c_blocks c1 = c_blocks c /\ (forall s, dirof c1 s = dirof c s) /\
    let c2 := set_dir c1 spare (dirof c1 narrow) in
    good c2 wide act l center /\ good c2 wide act center h /\
    map t_id (sub (vec c2 wide) l h) = map t_id (sub (vec c wide) l h).
Proof.
  intros N1 N2 N3 G Hc HS act. destruct G as [G1 G2 G3 GL S1 S2 P1 P2 CR].
  pose proof (linked_sym _ _ _ _ GL) as GS.
  set (n := vec c narrow) in *. set (w := vec c wide) in *.
  assert (HF : Forall finr (sub n l h)) by (eapply placed_finr; exact P2).
  assert (PO := linked_perm _ _ _ _ GS).
  set (mid := sub n l h) in *.
  assert (MID : vrange n l (h - 1) = Ok mid) by (apply vrange_ok; lia).
  (* common conclusion *)
  assert (FIN : forall L n' w',
    Permutation mid L -> L = filter (lowb center) L ++ filter (highb center) L ->
    StronglySorted ple (filter (lowb center) L) -> StronglySorted ple (filter (highb center) L) ->
    sub n' l h = L -> h <= lenZ n' -> length w' = length w ->
    (forall k, (k < length L)%nat -> w'.[t_o (nth k L ref0)] = set_o (w.[t_o (nth k L ref0)]) (l + Z.of_nat k)) ->
    (forall j, 0 <= j -> ~ In j (map t_o L) -> w'.[j] = w.[j]) ->
    (forall j, 0 <= j -> ~ l <= j < h -> w'.[j] = w.[j]) /\
    forall c2, vec c2 wide = w' -> vec c2 act = n' -> dirof c2 wide = dirof c wide -> dirof c2 act = dirof c narrow ->
    good c2 wide act l center /\ good c2 wide act center h /\ map t_id (sub (vec c2 wide) l h) = map t_id (sub w l h)).
  { intros L n' w' P EL SS1 SS2 EN LN LW HW HFr.
    destruct (rearranged _ n' _ w' l center h L GS ltac:(lia) ltac:(lia) P EL SS1 SS2 EN HW HFr) as (R1 & R2 & R3 & R4 & R5 & R6 & R7).
    split; [exact R2|]. intros c2 E1 E2 D1 D2.
    assert (PL : forall i, l <= i < h -> t_pos n'.[i] = coord (dirof c narrow) (t_id n'.[i]) /\ finr n'.[i]).
    { intros i Hi. destruct (R3 i Hi) as (i0 & Hi0 & ->). now apply P2. }
    assert (SR : forall a b, ple a b -> forall a' b', t_pos a' = t_pos a -> t_pos b' = t_pos b -> ple a' b') by (unfold ple; congruence).
    assert (PW : forall i, l <= i < h -> t_pos w'.[i] = coord (dirof c wide) (t_id w'.[i]) /\ finr w'.[i]).
    { intros i Hi. destruct (R1 i ltac:(lia)) as (A & B). unfold finr. rewrite A, B. now apply P1. }
    assert (SW : forall a b, l <= a -> b <= h -> sorted_on w' a b).
    { intros a b Ha Hb i j Hi Hij Hj. eapply (SR w.[i] w.[j]); [apply S1; lia|apply R1; lia|apply R1; lia]. }
    assert (RF : forall i, l <= i < h -> ple n'.[i] n'.[i]).
    { intros i Hi. destruct (PL i Hi) as (_ & F). apply ple_R; auto. apply RIneq.Rle_refl. }
    split; [|split].
    - constructor; rewrite ?E1, ?E2, ?D1, ?D2; auto; try lia.
      + now apply linked_sym.
      + apply SW; lia.
      + intros i j Hi Hij Hj. destruct (Z.eq_dec i j) as [->|]; [apply RF; lia|apply R6; lia].
      + intros i Hi. apply PW. lia.
      + intros i Hi. apply PL. lia.
    - constructor; rewrite ?E1, ?E2, ?D1, ?D2; auto; try lia.
      + now apply linked_sym.
      + apply SW; lia.
      + intros i j Hi Hij Hj. destruct (Z.eq_dec i j) as [->|]; [apply RF; lia|apply R7; lia].
      + intros i Hi. apply PW. lia.
      + intros i Hi. apply PL. lia.
    - rewrite E1. unfold sub. rewrite !map_map. apply map_ext_in. intros i Hi. apply zrange_In in Hi. apply R1. lia. }
  unfold rearrange_narrow. fold n w. subst act. destruct use_sort.
  - unfold sort_range. rewrite MID. cbn [obind].
    destruct (srt_ok (side_lt center) mid (side_lt_weak center _ HF)) as (P & SS).
    set (L := srt (side_lt center) mid) in *.
    assert (LL : length L = Z.to_nat (h - l)) by (rewrite <- (Permutation_length P); apply sub_length).
    set (n' := firstn (Z.to_nat l) n ++ L ++ skipn (Z.to_nat (h - 1 + 1)) n).
    assert (LN : length n' = length n).
    { unfold n'. rewrite !app_length, firstn_length, skipn_length. lia. }
    assert (AT : forall i, 0 <= i -> n'.[i] = if (l <=? i) && (i <? h) then nth (Z.to_nat (i - l)) L ref0 else n.[i]).
    { intros i Hi. unfold n', at_. destruct (Z.leb_spec l i) as [A|A]; cbn [andb].
      - rewrite app_nth2 by (rewrite firstn_length; lia). rewrite firstn_length. destruct (Z.ltb_spec i h) as [B|B].
        + rewrite app_nth1 by lia. f_equal. lia.
        + rewrite app_nth2 by lia. rewrite nth_skip. f_equal. lia.
      - rewrite app_nth1 by (rewrite firstn_length; lia). now rewrite nth_first by lia. }
    assert (EN : sub n' l h = L).
    { apply nth_ext with (d := ref0) (d' := ref0); [rewrite sub_length; lia|]. intros k Hk. rewrite sub_length in Hk.
      rewrite sub_nth by lia. rewrite AT by lia. destruct (Z.leb_spec l (l + Z.of_nat k)); [|lia]. destruct (Z.ltb_spec (l + Z.of_nat k) h); [|lia].
      cbn [andb]. f_equal. lia. }
    rewrite vrange_ok by lia. rewrite EN. cbn [obind].
    destruct (relink_ok t_o L l w) as (w' & ER & LW & HW & HFr).
    { apply (Permutation_NoDup (Permutation_sym (Permutation_trans (Permutation_map t_o (Permutation_sym P)) PO))). apply zrange_NoDup. }
    { intros x Hx. assert (I : In (t_o x) (zrange l h)).
      { apply (Permutation_in _ PO). apply in_map. now apply (Permutation_in _ (Permutation_sym P)). }
      apply zrange_In in I. lia. }
    rewrite ER. cbn [obind].
    assert (HF' : Forall finr L) by (eapply Permutation_Forall; eassumption).
    destruct (FIN L n' w' P) as (FR & G2'); auto.
    { now apply side_sorted_split. }
    { apply (side_sorted_pos center); auto. intros; congruence. }
    { apply (side_sorted_pos center); auto. unfold highb. intros x y X Y. apply negb_true_iff in X, Y. congruence. }
    { lia. }
    eexists. split; [reflexivity|]. split; [|split; [|split]].
    + intros s. rewrite vec_set. destruct (slot_dec s wide) as [->|]; [split; [exact LW|exact FR]|].
      rewrite vec_set. destruct (slot_dec s narrow) as [->|]; [|auto]. split; [exact LN|]. intros i Hi Ni. rewrite AT by exact Hi. fold n.
      destruct (Z.leb_spec l i); [|reflexivity]. destruct (Z.ltb_spec i h); [lia|reflexivity].
    + now rewrite !blocks_set_vec.
    + intros s. now rewrite !dir_set_vec.
    + apply G2'; rewrite ?vec_set_dir, ?vec_set_same.
      * reflexivity.
      * rewrite vec_set_other by congruence. apply vec_set_same.
      * rewrite dir_set_other by congruence. now rewrite !dir_set_vec.
      * rewrite dir_set_other by congruence. now rewrite !dir_set_vec.
  - rewrite MID. cbn [obind]. specialize (HS eq_refl).
    pose proof (count_low _ _ _ center _ _ GS ltac:(lia) (Permutation_refl _)) as CL. fold n mid in CL.
    assert (CH : (length (filter (lowb center) mid) + length (filter (highb center) mid))%nat = length mid).
    { clear. unfold highb. induction mid as [|x m IH]; [reflexivity|]. cbn [filter]. destruct (lowb center x); cbn [negb List.length]; lia. }
    assert (LM : length mid = Z.to_nat (h - l)) by apply sub_length.
    set (lo := filter (lowb center) mid) in *. set (hi := filter (highb center) mid) in *.
    destruct (scatter_ok center mid l center (vec c spare) w) as (s' & w' & ES & LS & LW & T1 & T2 & T3 & W1 & W2 & W3).
    { apply (Permutation_NoDup (Permutation_sym PO)). apply zrange_NoDup. }
    { intros x Hx. assert (I : In (t_o x) (zrange l h)) by (apply (Permutation_in _ PO); now apply in_map). apply zrange_In in I. lia. }
    { lia. } { fold lo. lia. } { fold hi. lia. }
    fold lo hi in T1, T2, T3, W1, W2. rewrite ES. cbn [obind].
    assert (FL : filter (lowb center) (lo ++ hi) = lo).
    { rewrite filter_app, filter_all, filter_none, app_nil_r; [reflexivity| |].
      - intros x Hx. apply filter_In in Hx. apply proj2 in Hx. unfold highb in Hx. now apply negb_true_iff.
      - intros x Hx. apply filter_In in Hx. tauto. }
    assert (FH : filter (highb center) (lo ++ hi) = hi).
    { rewrite filter_app, filter_none, filter_all; [reflexivity| |].
      - intros x Hx. apply filter_In in Hx. tauto.
      - intros x Hx. apply filter_In in Hx. apply proj2 in Hx. unfold highb. now rewrite Hx. }
    assert (PM : Permutation mid (lo ++ hi)).
    { unfold lo, hi, highb. clear. induction mid as [|x m IH]; [constructor|]. cbn [filter]. destruct (lowb center x); cbn [negb app]; [now constructor|].
      now apply Permutation_cons_app. }
    destruct (FIN (lo ++ hi) s' w' PM) as (FR & G2').
    { now rewrite FL, FH. }
    { rewrite FL. apply SS_filter. now apply sorted_SS. }
    { rewrite FH. apply SS_filter. now apply sorted_SS. }
    { apply nth_ext with (d := ref0) (d' := ref0); [rewrite sub_length, app_length; lia|]. intros k Hk. rewrite sub_length in Hk. rewrite sub_nth by lia.
      destruct (Nat.lt_ge_cases k (length lo)) as [A|A].
      - rewrite T1 by exact A. now rewrite app_nth1.
      - rewrite app_nth2 by exact A. rewrite <- T2 by lia. f_equal. lia. }
    { lia. }
    { exact LW. }
    { intros k Hk. rewrite app_length in Hk. destruct (Nat.lt_ge_cases k (length lo)) as [A|A].
      - rewrite app_nth1 by exact A. now apply W1.
      - rewrite app_nth2 by exact A. rewrite W2 by lia. f_equal. lia. }
    { intros j Hj NI. apply W3; [exact Hj|]. intros I. apply NI. apply (Permutation_in _ (Permutation_map t_o PM)). exact I. }
    eexists. split; [reflexivity|]. split; [|split; [|split]].
    + intros s. rewrite vec_set. destruct (slot_dec s wide) as [->|]; [split; [exact LW|exact FR]|].
      rewrite vec_set. destruct (slot_dec s spare) as [->|]; [|auto]. split; [exact LS|]. intros i Hi Ni. apply T3; lia.
    + now rewrite !blocks_set_vec.
    + intros s. now rewrite !dir_set_vec.
    + apply G2'; rewrite ?vec_set_dir, ?vec_set_same.
      * reflexivity.
      * rewrite vec_set_other by congruence. apply vec_set_same.
      * rewrite dir_set_other by congruence. now rewrite !dir_set_vec.
      * rewrite dir_set_same. now rewrite !dir_set_vec.
Qed.
End Split.

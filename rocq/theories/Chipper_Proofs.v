(** The splitting of the chipper: invariant and its preservation. *)
From Coq Require Import ZArith List Bool Lia Permutation Sorting.Sorted Reals Lra.
Import ListNotations.
From Verif Require Import Outcome Bytes Float64 Float64_Proofs Header_Model Cached_Model Cached_Proofs Summary_Proofs Chipper_Model Chipper_Spec Chipper_Lists.
Local Open Scope Z_scope.
Local Notation length := List.length (only parsing).

(** ** Orders *)
Definition finr (r : ptref) : Prop := f64_fin (t_pos r) = true.
Definition ple (a b : ptref) : Prop := f64_le (t_pos a) (t_pos b) = true.
Lemma pos_lt_t a b : finr a -> finr b -> pos_lt a b = true <-> (f64_R (t_pos a) < f64_R (t_pos b))%R.
Proof. intros A B. now apply f64_lt_R. Qed.
Lemma pos_lt_f a b : finr a -> finr b -> pos_lt a b = false <-> (f64_R (t_pos b) <= f64_R (t_pos a))%R.
Proof.
  intros A B. pose proof (pos_lt_t a b A B) as H. destruct (pos_lt a b); split; intros E; try reflexivity; try discriminate.
  - apply proj1 in H. specialize (H eq_refl). lra.
  - destruct (Rle_or_lt (f64_R (t_pos b)) (f64_R (t_pos a))) as [|L]; [assumption|]. apply H in L. discriminate.
Qed.
Lemma ple_R a b : finr a -> finr b -> ple a b <-> (f64_R (t_pos a) <= f64_R (t_pos b))%R.
Proof. intros A B. now apply f64_le_R. Qed.
Lemma ple_of a b : finr a -> finr b -> pos_lt b a = false -> ple a b.
Proof. intros A B H. apply ple_R; auto. apply (pos_lt_f b a); auto. Qed.

Lemma pos_lt_weak L : Forall finr L -> strict_weak_on pos_lt L.
Proof.
  intros F. rewrite Forall_forall in F. split; [|split].
  - intros a Ha. apply pos_lt_f; auto. lra.
  - intros a b c Ha Hb Hc. rewrite !pos_lt_t by auto. lra.
  - intros a b c Ha Hb Hc. rewrite !pos_lt_f by auto. lra.
Qed.
Lemma side_lt_weak center L : Forall finr L -> strict_weak_on (side_lt center) L.
Proof.
  intros F. rewrite Forall_forall in F. unfold side_lt. split; [|split].
  - intros a Ha. destruct (Z.ltb_spec (t_o a) center), (Z.leb_spec center (t_o a)); cbn [andb]; try lia; apply pos_lt_f; auto; lra.
  - intros a b c Ha Hb Hc.
    destruct (Z.ltb_spec (t_o a) center), (Z.leb_spec center (t_o a)); try lia;
    destruct (Z.ltb_spec (t_o b) center), (Z.leb_spec center (t_o b)); try lia;
    destruct (Z.ltb_spec (t_o c) center), (Z.leb_spec center (t_o c)); try lia; cbn [andb]; try discriminate; try reflexivity;
    rewrite !pos_lt_t by auto; lra.
  - intros a b c Ha Hb Hc.
    destruct (Z.ltb_spec (t_o a) center), (Z.leb_spec center (t_o a)); try lia;
    destruct (Z.ltb_spec (t_o b) center), (Z.leb_spec center (t_o b)); try lia;
    destruct (Z.ltb_spec (t_o c) center), (Z.leb_spec center (t_o c)); try lia; cbn [andb]; try discriminate; try reflexivity;
    rewrite !pos_lt_f by auto; lra.
Qed.

Lemma SS_nth {A} (R : A -> A -> Prop) L d : StronglySorted R L -> forall i j, (i < j)%nat -> (j < length L)%nat -> R (nth i L d) (nth j L d).
Proof.
  induction 1 as [|x L S IH F]; intros i j Hi Hj; [cbn in Hj; lia|]. destruct j; [lia|]. cbn [List.length] in Hj.
  destruct i; cbn [nth].
  - rewrite Forall_forall in F. apply F, nth_In. lia.
  - apply IH; lia.
Qed.
Lemma nth_SS {A} (R : A -> A -> Prop) L d : (forall i j, (i < j)%nat -> (j < length L)%nat -> R (nth i L d) (nth j L d)) -> StronglySorted R L.
Proof.
  induction L as [|x L IH]; intros H; [constructor|]. constructor.
  - apply IH. intros i j Hi Hj. apply (H (S i) (S j)); cbn [List.length]; lia.
  - apply Forall_forall. intros y Hy. apply (In_nth _ _ d) in Hy. destruct Hy as (k & Hk & <-). apply (H 0%nat (S k)); cbn [List.length]; lia.
Qed.
Lemma SS_filter {A} (R : A -> A -> Prop) p L : StronglySorted R L -> StronglySorted R (filter p L).
Proof.
  induction 1 as [|x L S IH F]; cbn [filter]; [constructor|]. destruct (p x); [|assumption]. constructor; [assumption|].
  rewrite Forall_forall in *. intros y Hy. apply F. now apply filter_In in Hy.
Qed.

(** the comparison of SortByOIndex puts the low side first and sorts each side *)
Lemma side_sorted_split center L : StronglySorted (fun a b => side_lt center b a = false) L ->
  L = filter (lowb center) L ++ filter (highb center) L.
Proof.
  induction 1 as [|x L S IH F]; [reflexivity|]. cbn [filter]. unfold highb at 1. destruct (lowb center x) eqn:E; cbn [negb app]; [now f_equal|].
  assert (H : forall y, In y L -> lowb center y = false).
  { intros y Hy. rewrite Forall_forall in F. specialize (F y Hy). unfold side_lt, lowb in *.
    destruct (Z.ltb_spec (t_o y) center); [|reflexivity]. destruct (Z.ltb_spec (t_o x) center); [discriminate|].
    destruct (Z.leb_spec center (t_o x)); [discriminate|lia]. }
  assert (E1 : filter (lowb center) L = []).
  { clear -H. induction L as [|y L IH]; [reflexivity|]. cbn [filter]. rewrite H by now left. apply IH. intros; apply H; now right. }
  rewrite E1 in *. cbn [app] in *. now f_equal.
Qed.
Lemma side_sorted_pos center L p : Forall finr L -> (forall x y, p x = true -> p y = true -> lowb center x = lowb center y) ->
  StronglySorted (fun a b => side_lt center b a = false) L -> StronglySorted ple (filter p L).
Proof.
  intros F P. induction 1 as [|x L S IH Fx]; cbn [filter]; [constructor|]. inversion F as [|? ? Fi F']; subst.
  destruct (p x) eqn:Px; [|now apply IH]. constructor; [now apply IH|].
  rewrite Forall_forall in *. intros y Hy. apply filter_In in Hy. destruct Hy as (Hy & Py). specialize (Fx y Hy).
  specialize (P x y Px Py). unfold side_lt, lowb in *. apply ple_of; auto.
  destruct (Z.ltb_spec (t_o x) center), (Z.ltb_spec (t_o y) center); try discriminate;
  destruct (Z.leb_spec center (t_o x)), (Z.leb_spec center (t_o y)); try lia; cbn [andb] in Fx; exact Fx.
Qed.

(** ** Ranges of two lists referring to each other *)
Definition linked (a b : list ptref) (l h : Z) : Prop :=
  forall i, l <= i < h -> l <= t_o a.[i] < h /\ t_id b.[t_o a.[i]] = t_id a.[i] /\ t_o b.[t_o a.[i]] = i.
Definition sorted_on (v : list ptref) (l h : Z) : Prop := forall i j, l <= i -> i <= j -> j < h -> ple v.[i] v.[j].

Lemma linked_perm a b l h : linked a b l h -> Permutation (map t_o (sub a l h)) (zrange l h).
Proof.
  intros H. apply NoDup_Permutation_bis.
  - apply (NoDup_map_inv (fun j => t_o b.[j])). rewrite map_map. unfold sub. rewrite map_map.
    replace (map (fun x => t_o b.[t_o a.[x]]) (zrange l h)) with (map (fun x : Z => x) (zrange l h)).
    + rewrite map_id. apply zrange_NoDup.
    + apply map_ext_in. intros i Hi. apply zrange_In in Hi. symmetry. apply (H i Hi).
  - rewrite map_length, sub_length, zrange_length. lia.
  - intros j Hj. unfold sub in Hj. rewrite map_map in Hj. apply in_map_iff in Hj. destruct Hj as (i & <- & Hi).
    apply zrange_In. apply zrange_In in Hi. apply (H i Hi).
Qed.
Lemma linked_onto a b l h j : linked a b l h -> l <= j < h -> exists i, l <= i < h /\ t_o a.[i] = j.
Proof.
  intros H Hj. pose proof (Permutation_in j (Permutation_sym (linked_perm _ _ _ _ H)) (proj2 (zrange_In l h j) Hj)) as I.
  unfold sub in I. rewrite map_map in I. apply in_map_iff in I. destruct I as (i & E & Hi). exists i. split; [now apply zrange_In|exact E].
Qed.
Lemma linked_sym a b l h : linked a b l h -> linked b a l h.
Proof.
  intros H j Hj. destruct (linked_onto _ _ _ _ _ H Hj) as (i & Hi & <-). destruct (H i Hi) as (A & B & C).
  rewrite C. repeat split; lia || congruence.
Qed.
Lemma linked_ids a b l h : linked a b l h -> Permutation (map t_id (sub a l h)) (map t_id (sub b l h)).
Proof.
  intros H. replace (map t_id (sub a l h)) with (map (fun j => t_id b.[j]) (map t_o (sub a l h))).
  - unfold sub at 2. rewrite (map_map (at_ b)). apply Permutation_map. now apply (linked_perm _ b).
  - unfold sub. rewrite !map_map. apply map_ext_in. intros i Hi. apply zrange_In in Hi. apply (H i Hi).
Qed.

Lemma filter_all {A} (p : A -> bool) L : (forall x, In x L -> p x = true) -> filter p L = L.
Proof. induction L as [|x L IH]; intros H; [reflexivity|]. cbn [filter]. rewrite H by now left. f_equal. apply IH. intros; apply H; now right. Qed.
Lemma filter_none {A} (p : A -> bool) L : (forall x, In x L -> p x = false) -> filter p L = [].
Proof. induction L as [|x L IH]; intros H; [reflexivity|]. cbn [filter]. rewrite H by now left. apply IH. intros; apply H; now right. Qed.
Lemma filter_map {A B} (f : A -> B) p L : filter p (map f L) = map f (filter (fun x => p (f x)) L).
Proof. induction L as [|x L IH]; [reflexivity|]. cbn [map filter]. destruct (p (f x)); cbn [map]; now rewrite IH. Qed.
Lemma perm_filter_length {A} (p : A -> bool) L M : Permutation L M -> length (filter p L) = length (filter p M).
Proof.
  induction 1; cbn [filter]; auto; try congruence.
  - destruct (p x); cbn [List.length]; congruence.
  - destruct (p x), (p y); reflexivity.
Qed.
Lemma count_low a b l center h L : linked a b l h -> l <= center <= h -> Permutation (sub a l h) L ->
  length (filter (lowb center) L) = Z.to_nat (center - l).
Proof.
  intros H Hc P. rewrite <- (perm_filter_length _ _ _ P). unfold lowb.
  rewrite <- (map_length t_o). rewrite <- (filter_map t_o (fun o => o <? center)).
  rewrite (perm_filter_length _ _ _ (linked_perm _ _ _ _ H)).
  rewrite (zrange_app l center h Hc), filter_app, app_length, filter_all, filter_none, zrange_length; [cbn; lia| |].
  - intros x Hx. apply zrange_In in Hx. apply Z.ltb_ge. lia.
  - intros x Hx. apply zrange_In in Hx. apply Z.ltb_lt. lia.
Qed.

Lemma app_split {A} (a b c d : list A) : a ++ b = c ++ d -> length a = length c -> a = c /\ b = d.
Proof. revert c. induction a as [|x a IH]; intros [|y c] E H; cbn in *; try lia; [auto|]. injection E as -> E. destruct (IH c E) as (-> & ->); auto. Qed.

(** What both ways of rearranging the narrow list achieve. *)
Lemma rearranged a a' b b' l center h L :
  linked a b l h -> 0 <= l -> l <= center <= h -> Permutation (sub a l h) L ->
  L = filter (lowb center) L ++ filter (highb center) L ->
  StronglySorted ple (filter (lowb center) L) -> StronglySorted ple (filter (highb center) L) ->
  sub a' l h = L ->
  (forall k, (k < length L)%nat -> b'.[t_o (nth k L ref0)] = set_o (b.[t_o (nth k L ref0)]) (l + Z.of_nat k)) ->
  (forall j, 0 <= j -> ~ In j (map t_o L) -> b'.[j] = b.[j]) ->
  (forall j, 0 <= j -> t_pos b'.[j] = t_pos b.[j] /\ t_id b'.[j] = t_id b.[j]) /\
  (forall j, 0 <= j -> ~ l <= j < h -> b'.[j] = b.[j]) /\
  (forall i, l <= i < h -> exists i0, l <= i0 < h /\ a'.[i] = a.[i0]) /\
  linked a' b' l center /\ linked a' b' center h /\
  (forall i j, l <= i -> i < j -> j < center -> ple a'.[i] a'.[j]) /\ (forall i j, center <= i -> i < j -> j < h -> ple a'.[i] a'.[j]).
Proof.
  intros K Hl Hc P EL S1 S2 EA W F.
  pose proof (Permutation_length P) as LL. rewrite sub_length in LL.
  pose proof (count_low _ _ _ _ _ _ K Hc P) as CL.
  assert (PO : Permutation (map t_o L) (zrange l h)).
  { transitivity (map t_o (sub a l h)); [|now apply (linked_perm _ b)]. apply Permutation_map. now symmetry. }
  rewrite (sub_app a' l center h Hc) in EA. rewrite EL in EA. symmetry in EA. apply app_split in EA; [|rewrite CL, sub_length; lia].
  destruct EA as (EA1 & EA2).
  assert (A : forall i, l <= i < h -> a'.[i] = nth (Z.to_nat (i - l)) L ref0).
  { intros i Hi. rewrite EL, EA1, EA2, <- sub_app by exact Hc. rewrite sub_nth by lia. f_equal. lia. }
  assert (FR : forall i, l <= i < h -> exists i0, l <= i0 < h /\ a'.[i] = a.[i0]).
  { intros i Hi. rewrite A by exact Hi. assert (I : In (nth (Z.to_nat (i - l)) L ref0) (sub a l h)).
    { apply (Permutation_in _ (Permutation_sym P)). apply nth_In. lia. }
    unfold sub in I. apply in_map_iff in I. destruct I as (i0 & E & Hi0). exists i0. split; [now apply zrange_In|now symmetry]. }
  assert (W' : forall i, l <= i < h -> b'.[t_o a'.[i]] = set_o (b.[t_o a'.[i]]) i).
  { intros i Hi. rewrite A by exact Hi. rewrite W by lia. f_equal. lia. }
  assert (LK : forall i, l <= i < h -> l <= t_o a'.[i] < h /\ t_id b'.[t_o a'.[i]] = t_id a'.[i] /\ t_o b'.[t_o a'.[i]] = i).
  { intros i Hi. destruct (FR i Hi) as (i0 & Hi0 & E). destruct (K i0 Hi0) as (X & Y & _). rewrite W' by exact Hi. rewrite E. cbn. auto. }
  assert (LO : forall i, l <= i < center -> t_o a'.[i] < center).
  { intros i Hi. assert (I : In a'.[i] (filter (lowb center) L)).
    { rewrite EA1. unfold sub. apply in_map. apply zrange_In. lia. }
    apply filter_In in I. apply Z.ltb_lt. apply (proj2 I). }
  assert (HI : forall i, center <= i < h -> center <= t_o a'.[i]).
  { intros i Hi. assert (I : In a'.[i] (filter (highb center) L)).
    { rewrite EA2. unfold sub. apply in_map. apply zrange_In. lia. }
    apply filter_In in I. apply proj2 in I. unfold highb, lowb in I. destruct (Z.ltb_spec (t_o a'.[i]) center); [discriminate|lia]. }
  split; [|split; [|split; [|split; [|split; [|split]]]]].
  - intros j Hj. destruct (in_dec Z.eq_dec j (map t_o L)) as [I|N]; [|rewrite F by assumption; auto].
    apply in_map_iff in I. destruct I as (x & <- & Hx). apply (In_nth _ _ ref0) in Hx. destruct Hx as (k & Hk & <-). rewrite W by exact Hk. auto.
  - intros j Hj N. apply F; [exact Hj|]. intros I. apply (Permutation_in _ PO) in I. apply zrange_In in I. lia.
  - exact FR.
  - intros i Hi. destruct (LK i ltac:(lia)) as (X & Y & Z0). pose proof (LO i Hi). repeat split; auto; lia.
  - intros i Hi. destruct (LK i ltac:(lia)) as (X & Y & Z0). pose proof (HI i Hi). repeat split; auto; lia.
  - intros i j Hi Hij Hj. pose proof (SS_nth _ _ ref0 S1 (Z.to_nat (i - l)) (Z.to_nat (j - l)) ltac:(lia)) as N.
    rewrite EA1, sub_length in N. specialize (N ltac:(lia)). rewrite !sub_nth in N by lia.
    replace (l + Z.of_nat (Z.to_nat (i - l))) with i in N by lia. replace (l + Z.of_nat (Z.to_nat (j - l))) with j in N by lia. exact N.
  - intros i j Hi Hij Hj. pose proof (SS_nth _ _ ref0 S2 (Z.to_nat (i - center)) (Z.to_nat (j - center)) ltac:(lia)) as N.
    rewrite EA2, sub_length in N. specialize (N ltac:(lia)). rewrite !sub_nth in N by lia.
    replace (center + Z.of_nat (Z.to_nat (i - center))) with i in N by lia. replace (center + Z.of_nat (Z.to_nat (j - center))) with j in N by lia. exact N.
Qed.

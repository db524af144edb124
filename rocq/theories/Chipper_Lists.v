(** Lists of references: ranges, relinking, scattering. *)
From Coq Require Import ZArith List Bool Lia Permutation Sorting.Sorted.
Import ListNotations.
From Verif Require Import Outcome Bytes Float64 Float64_Proofs Header_Model Cached_Model Cached_Proofs Summary_Proofs Chipper_Model Chipper_Spec.
Local Open Scope Z_scope.
Local Notation length := List.length (only parsing).

Definition at_ (v : list ptref) (i : Z) : ptref := nth (Z.to_nat i) v ref0.
Notation "v .[ i ]" := (at_ v i) (at level 2, left associativity, format "v .[ i ]").
Notation lenZ v := (Z.of_nat (List.length v)).
Definition zrange (l h : Z) : list Z := zseq l (Z.to_nat (h - l)).

(** ** zseq *)
Lemma zseq_length s n : length (zseq s n) = n.
Proof. unfold zseq. now rewrite map_length, seq_length. Qed.
Lemma zseq_S s n : zseq s (S n) = s :: zseq (s + 1) n.
Proof.
  unfold zseq. cbn [seq map]. f_equal; [lia|]. rewrite <- seq_shift, map_map. apply map_ext. intros. lia.
Qed.
Lemma zseq_app s n m : zseq s (n + m) = zseq s n ++ zseq (s + Z.of_nat n) m.
Proof.
  revert s. induction n as [|n IH]; intros s; [cbn [Nat.add]; change (zseq s 0) with (@nil Z); cbn [app]; f_equal; lia|].
  cbn [Nat.add]. rewrite !zseq_S, IH. cbn [app]. do 3 f_equal. lia.
Qed.
Lemma zseq_In s n i : In i (zseq s n) <-> s <= i < s + Z.of_nat n.
Proof.
  unfold zseq. rewrite in_map_iff. split.
  - intros (k & E & H). apply in_seq in H. lia.
  - intros H. exists (Z.to_nat (i - s)). split; [lia|]. apply in_seq. lia.
Qed.
Lemma zseq_NoDup s n : NoDup (zseq s n).
Proof.
  revert s. induction n as [|n IH]; intros s; [constructor|]. rewrite zseq_S. constructor; [|apply IH]. rewrite zseq_In. lia.
Qed.
Lemma zrange_In l h i : In i (zrange l h) <-> l <= i < h.
Proof. unfold zrange. rewrite zseq_In. lia. Qed.
Lemma zrange_NoDup l h : NoDup (zrange l h).
Proof. apply zseq_NoDup. Qed.
Lemma zrange_length l h : length (zrange l h) = Z.to_nat (h - l).
Proof. apply zseq_length. Qed.
Lemma zrange_app l c h : l <= c <= h -> zrange l h = zrange l c ++ zrange c h.
Proof.
  intros H. unfold zrange. replace (Z.to_nat (h - l)) with (Z.to_nat (c - l) + Z.to_nat (h - c))%nat by lia.
  rewrite zseq_app. f_equal. f_equal. lia.
Qed.
Lemma zrange_nth l h k d : l + Z.of_nat k < h -> nth k (zrange l h) d = l + Z.of_nat k.
Proof.
  intros H. unfold zrange, zseq. rewrite (nth_indep _ d ((fun i => l + Z.of_nat i) 0%nat)) by (rewrite map_length, seq_length; lia).
  rewrite (map_nth (fun i => l + Z.of_nat i)). rewrite seq_nth by lia. lia.
Qed.

(** ** A range of a vector *)
Definition sub (v : list ptref) (l h : Z) : list ptref := map (at_ v) (zrange l h).
Lemma sub_length v l h : length (sub v l h) = Z.to_nat (h - l).
Proof. unfold sub. rewrite map_length. apply zrange_length. Qed.
Lemma sub_nth v l h k d : l + Z.of_nat k < h -> nth k (sub v l h) d = v.[l + Z.of_nat k].
Proof.
  intros H. unfold sub. rewrite (nth_indep _ d (v.[0])) by (rewrite map_length, zrange_length; lia).
  rewrite (map_nth (at_ v)). now rewrite zrange_nth.
Qed.
Lemma sub_ext v w l h : (forall i, l <= i < h -> v.[i] = w.[i]) -> sub v l h = sub w l h.
Proof. intros H. apply map_ext_in. intros i Hi. apply H. now apply zrange_In. Qed.
Lemma sub_app v l c h : l <= c <= h -> sub v l h = sub v l c ++ sub v c h.
Proof. intros H. unfold sub. now rewrite (zrange_app l c h H), map_app. Qed.
Lemma nth_first {A} (l : list A) n k d : (k < n)%nat -> nth k (firstn n l) d = nth k l d.
Proof. revert n k. induction l as [|x l IH]; intros [|n] [|k] H; cbn [firstn nth]; try reflexivity; try lia. apply IH. lia. Qed.
Lemma nth_skip {A} (l : list A) n k d : nth k (skipn n l) d = nth (n + k) l d.
Proof. revert n. induction l as [|x l IH]; intros [|n]; cbn [skipn nth Nat.add]; try reflexivity; [now destruct k|apply IH]. Qed.
Lemma vrange_ok v l h : 0 <= l -> l < h <= lenZ v -> vrange v l (h - 1) = Ok (sub v l h).
Proof.
  intros L H. unfold vrange. destruct (Z.ltb_spec (h - 1) l); [lia|].
  destruct (Z.leb_spec 0 l); [|lia]. destruct (Z.ltb_spec (h - 1) (lenZ v)); [|lia]. cbn [andb]. f_equal.
  apply nth_ext with (d := ref0) (d' := ref0).
  - rewrite firstn_length, skipn_length, sub_length. lia.
  - intros k Hk. rewrite firstn_length, skipn_length in Hk. rewrite sub_nth by lia. unfold at_.
    rewrite nth_first by lia. rewrite nth_skip. f_equal. lia.
Qed.
Lemma sub_all v : sub v 0 (lenZ v) = v.
Proof.
  apply nth_ext with (d := ref0) (d' := ref0); [rewrite sub_length; lia|].
  intros k Hk. rewrite sub_length in Hk. rewrite sub_nth by lia. unfold at_. f_equal. lia.
Qed.

Lemma vget_at v i : 0 <= i < lenZ v -> vget v i = Ok (v.[i]).
Proof. intros H. now apply vget_ok. Qed.
Lemma at_list_set v i k x : 0 <= i < lenZ v -> 0 <= k -> (list_set v (Z.to_nat i) x).[k] = if k =? i then x else v.[k].
Proof.
  intros H K. unfold at_. rewrite nth_list_set by lia. destruct (Z.eqb_spec k i) as [->|N].
  - now rewrite Nat.eqb_refl.
  - destruct (Nat.eqb_spec (Z.to_nat k) (Z.to_nat i)); [lia|reflexivity].
Qed.

(** ** relink *)
Lemma relink_ok key : forall L i0 t,
  NoDup (map key L) -> (forall x, In x L -> 0 <= key x < lenZ t) ->
  exists t', relink key L i0 t = Ok t' /\ length t' = length t /\
    (forall k, (k < length L)%nat -> t'.[key (nth k L ref0)] = set_o (t.[key (nth k L ref0)]) (i0 + Z.of_nat k)) /\
    (forall j, 0 <= j -> ~ In j (map key L) -> t'.[j] = t.[j]).
Proof.
  induction L as [|x L IH]; intros i0 t ND B; cbn [relink].
  - exists t. split; [reflexivity|]. split; [reflexivity|]. split; [cbn [List.length]; intros; lia|reflexivity].
  - inversion ND as [|? ? Nx ND']; subst. pose proof (B x (or_introl eq_refl)) as Bx.
    rewrite (vget_at _ _ Bx). cbn [obind]. rewrite vset_ok by exact Bx. cbn [obind].
    destruct (IH (i0 + 1) (list_set t (Z.to_nat (key x)) (set_o (t.[key x]) i0)) ND') as (t' & E & LE & S & F).
    { intros y Hy. rewrite length_list_set. apply B. now right. }
    exists t'. split; [exact E|]. rewrite length_list_set in LE. split; [exact LE|]. split.
    + intros [|k] Hk; cbn [nth].
      * rewrite F by (lia || assumption). rewrite at_list_set by lia. rewrite Z.eqb_refl. f_equal. lia.
      * cbn [List.length] in Hk. rewrite S by lia. rewrite at_list_set; [|lia|].
        2:{ apply (B (nth k L ref0)). right. apply nth_In. lia. }
        destruct (Z.eqb_spec (key (nth k L ref0)) (key x)) as [E0|_].
        -- exfalso. apply Nx. rewrite <- E0. apply in_map, nth_In. lia.
        -- f_equal. lia.
    + intros j Hj Nj. cbn [map In] in Nj. rewrite F by tauto. rewrite at_list_set by lia.
      destruct (Z.eqb_spec j (key x)); [exfalso; apply Nj; left; congruence|reflexivity].
Qed.

(** ** scatter *)
Definition lowb (center : Z) (x : ptref) : bool := t_o x <? center.
Definition highb (center : Z) (x : ptref) : bool := negb (lowb center x).
Lemma filter_In_map {A B} (f : A -> B) p l y : In y (map f (filter p l)) -> In y (map f l).
Proof. rewrite !in_map_iff. intros (x & E & H). apply filter_In in H. exists x. tauto. Qed.
Lemma scatter_ok center : forall L ls rs spare wide,
  NoDup (map t_o L) -> (forall x, In x L -> 0 <= t_o x < lenZ wide) ->
  0 <= ls -> ls + lenZ (filter (lowb center) L) <= rs -> rs + lenZ (filter (highb center) L) <= lenZ spare ->
  exists s' w', scatter center L ls rs spare wide = Ok (s', w') /\ length s' = length spare /\ length w' = length wide /\
    (forall k, (k < length (filter (lowb center) L))%nat -> s'.[ls + Z.of_nat k] = nth k (filter (lowb center) L) ref0) /\
    (forall k, (k < length (filter (highb center) L))%nat -> s'.[rs + Z.of_nat k] = nth k (filter (highb center) L) ref0) /\
    (forall i, 0 <= i -> ~ ls <= i < ls + lenZ (filter (lowb center) L) -> ~ rs <= i < rs + lenZ (filter (highb center) L) -> s'.[i] = spare.[i]) /\
    (forall k, (k < length (filter (lowb center) L))%nat ->
       w'.[t_o (nth k (filter (lowb center) L) ref0)] = set_o (wide.[t_o (nth k (filter (lowb center) L) ref0)]) (ls + Z.of_nat k)) /\
    (forall k, (k < length (filter (highb center) L))%nat ->
       w'.[t_o (nth k (filter (highb center) L) ref0)] = set_o (wide.[t_o (nth k (filter (highb center) L) ref0)]) (rs + Z.of_nat k)) /\
    (forall j, 0 <= j -> ~ In j (map t_o L) -> w'.[j] = wide.[j]).
Proof.
  induction L as [|x L IH]; intros ls rs spare wide ND B Hl Hr Hs; cbn [scatter].
  - exists spare, wide. cbn [filter List.length] in *. repeat match goal with |- _ /\ _ => split end; try reflexivity; intros; try lia; reflexivity.
  - inversion ND as [|? ? Nx ND']; subst. pose proof (B x (or_introl eq_refl)) as Bx.
    assert (B' : forall y, In y L -> 0 <= t_o y < lenZ wide) by (intros y Hy; apply B; now right).
    assert (FL : filter (lowb center) (x :: L) = if t_o x <? center then x :: filter (lowb center) L else filter (lowb center) L) by reflexivity.
    assert (FH : filter (highb center) (x :: L) = if t_o x <? center then filter (highb center) L else x :: filter (highb center) L).
    { cbn [filter]. unfold highb at 1, lowb. now destruct (t_o x <? center). }
    rewrite FL, FH in *. clear FL FH.
    destruct (Z.ltb_spec (t_o x) center) as [Hx|Hx]; cbn [List.length] in *.
    + rewrite vset_ok by lia. cbn [obind]. rewrite (vget_at _ _ Bx). cbn [obind]. rewrite vset_ok by exact Bx. cbn [obind].
      destruct (IH (ls + 1) rs (list_set spare (Z.to_nat ls) x) (list_set wide (Z.to_nat (t_o x)) (set_o (wide.[t_o x]) ls)) ND')
        as (s' & w' & E & L1 & L2 & S1 & S2 & S3 & W1 & W2 & W3); rewrite ?length_list_set; try assumption; try lia.
      exists s', w'. rewrite E. split; [reflexivity|]. rewrite length_list_set in L1, L2. split; [exact L1|]. split; [exact L2|].
      assert (NE : forall p k, (k < length (filter p L))%nat -> t_o (nth k (filter p L) ref0) <> t_o x).
      { intros p k Hk E0. apply Nx. rewrite <- E0. apply (filter_In_map _ p). apply in_map, nth_In. exact Hk. }
      assert (NB : forall p k, (k < length (filter p L))%nat -> 0 <= t_o (nth k (filter p L) ref0)).
      { intros p k Hk. apply B'. eapply proj1, filter_In. apply nth_In. exact Hk. }
      repeat match goal with |- _ /\ _ => split end.
      * intros [|k] Hk; cbn [nth].
        -- rewrite S3 by lia. rewrite at_list_set by lia. destruct (Z.eqb_spec (ls + Z.of_nat 0) ls); [reflexivity|lia].
        -- rewrite <- S1 by lia. f_equal. lia.
      * intros k Hk. now apply S2.
      * intros i Hi N1 N2. rewrite S3 by lia. rewrite at_list_set by lia. destruct (Z.eqb_spec i ls); [lia|reflexivity].
      * intros [|k] Hk; cbn [nth].
        -- rewrite W3 by (lia || assumption). rewrite at_list_set by lia. rewrite Z.eqb_refl. f_equal. lia.
        -- rewrite W1 by lia. rewrite at_list_set; [|lia|apply NB; lia].
           match goal with |- context [?a =? ?b] => destruct (Z.eqb_spec a b) as [E0|_] end; [exfalso; revert E0; apply NE; lia|]. f_equal. lia.
      * intros k Hk. rewrite W2 by lia. rewrite at_list_set; [|lia|apply NB; lia].
        match goal with |- context [?a =? ?b] => destruct (Z.eqb_spec a b) as [E0|_] end; [exfalso; revert E0; apply NE; lia|]. reflexivity.
      * intros j Hj Nj. cbn [map In] in Nj. rewrite W3 by tauto. rewrite at_list_set by lia.
        destruct (Z.eqb_spec j (t_o x)); [exfalso; apply Nj; left; congruence|reflexivity].
    + rewrite vset_ok by lia. cbn [obind]. rewrite (vget_at _ _ Bx). cbn [obind]. rewrite vset_ok by exact Bx. cbn [obind].
      destruct (IH ls (rs + 1) (list_set spare (Z.to_nat rs) x) (list_set wide (Z.to_nat (t_o x)) (set_o (wide.[t_o x]) rs)) ND')
        as (s' & w' & E & L1 & L2 & S1 & S2 & S3 & W1 & W2 & W3); rewrite ?length_list_set; try assumption; try lia.
      exists s', w'. rewrite E. split; [reflexivity|]. rewrite length_list_set in L1, L2. split; [exact L1|]. split; [exact L2|].
      assert (NE : forall p k, (k < length (filter p L))%nat -> t_o (nth k (filter p L) ref0) <> t_o x).
      { intros p k Hk E0. apply Nx. rewrite <- E0. apply (filter_In_map _ p). apply in_map, nth_In. exact Hk. }
      assert (NB : forall p k, (k < length (filter p L))%nat -> 0 <= t_o (nth k (filter p L) ref0)).
      { intros p k Hk. apply B'. eapply proj1, filter_In. apply nth_In. exact Hk. }
      repeat match goal with |- _ /\ _ => split end.
      * intros k Hk. now apply S1.
      * intros [|k] Hk; cbn [nth].
        -- rewrite S3 by lia. rewrite at_list_set by lia. destruct (Z.eqb_spec (rs + Z.of_nat 0) rs); [reflexivity|lia].
        -- rewrite <- S2 by lia. f_equal. lia.
      * intros i Hi N1 N2. rewrite S3 by lia. rewrite at_list_set by lia. destruct (Z.eqb_spec i rs); [lia|reflexivity].
      * intros k Hk. rewrite W1 by lia. rewrite at_list_set; [|lia|apply NB; lia].
        match goal with |- context [?a =? ?b] => destruct (Z.eqb_spec a b) as [E0|_] end; [exfalso; revert E0; apply NE; lia|]. reflexivity.
      * intros [|k] Hk; cbn [nth].
        -- rewrite W3 by (lia || assumption). rewrite at_list_set by lia. rewrite Z.eqb_refl. f_equal. lia.
        -- rewrite W2 by lia. rewrite at_list_set; [|lia|apply NB; lia].
           match goal with |- context [?a =? ?b] => destruct (Z.eqb_spec a b) as [E0|_] end; [exfalso; revert E0; apply NE; lia|]. f_equal. lia.
      * intros j Hj Nj. cbn [map In] in Nj. rewrite W3 by tauto. rewrite at_list_set by lia.
        destruct (Z.eqb_spec j (t_o x)); [exfalso; apply Nj; left; congruence|reflexivity].
Qed.

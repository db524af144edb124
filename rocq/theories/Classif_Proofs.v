From Coq Require Import ZArith List Lia Bool.
From Coq Require Import ZifyBool ZifyNat.
Import ListNotations.
From Verif Require Import Outcome Bytes Classif_Model.
Local Open Scope Z_scope.

(** Abstract classification: class number and three independent flags. *)
Record aclass := mkAclass { ac_cls : Z; ac_syn : bool; ac_key : bool; ac_wit : bool }.
(** LAS 1.1 table 1.1 bit encoding: bits 0-4 class, 5 synthetic, 6 key-point, 7
    withheld. *)
Definition class_byte (a : aclass) : Z :=
  ac_cls a + 32 * Z.b2z (ac_syn a) + 64 * Z.b2z (ac_key a) + 128 * Z.b2z (ac_wit a).

(** Public write operations, with an exception caught by the caller. *)
Inductive cop := CSetClass (n : Z) | CSetSynthetic (b : bool) | CSetKeyPoint (b : bool) | CSetWithheld (b : bool).
Definition cop_run (f : Z) (o : cop) : outcome Z :=
  match o with
  | CSetClass n => class_set f n
  | CSetSynthetic b => Ok (class_set_synthetic f b)
  | CSetKeyPoint b => Ok (class_set_keypoint f b)
  | CSetWithheld b => Ok (class_set_withheld f b)
  end.
Definition cop_spec (a : aclass) (o : cop) : aclass :=
  match o with
  | CSetClass n => mkAclass n (ac_syn a) (ac_key a) (ac_wit a)
  | CSetSynthetic b => mkAclass (ac_cls a) b (ac_key a) (ac_wit a)
  | CSetKeyPoint b => mkAclass (ac_cls a) (ac_syn a) b (ac_wit a)
  | CSetWithheld b => mkAclass (ac_cls a) (ac_syn a) (ac_key a) b
  end.
(** Arguments are uint32_t; class numbers over 31 are the rejected ones. *)
Definition cop_accepts (o : cop) : bool :=
  match o with CSetClass n => n <=? 31 | _ => true end.
Definition cop_typed (o : cop) : Prop :=
  match o with CSetClass n => in_unsigned 32 n | _ => True end.

Definition zrange (n : nat) : list Z := map Z.of_nat (seq 0 n).
Lemma zrange_in n z : 0 <= z < Z.of_nat n -> In z (zrange n).
Proof. intros H. unfold zrange. apply in_map_iff. exists (Z.to_nat z). split; [lia|]. apply in_seq. lia. Qed.

Definition both : list bool := [true; false].
Lemma both_in b : In b both. Proof. destruct b; cbn; auto. Qed.

Definition aclass_all : list aclass :=
  flat_map (fun c => flat_map (fun s => flat_map (fun k => map (fun w => mkAclass c s k w) both) both) both) (zrange 32).
Lemma aclass_all_in a : 0 <= ac_cls a < 32 -> In a aclass_all.
Proof.
  intros H. destruct a as [c s k w]. cbn in H. unfold aclass_all.
  apply in_flat_map. exists c. split; [apply zrange_in; exact H|].
  apply in_flat_map. exists s. split; [apply both_in|].
  apply in_flat_map. exists k. split; [apply both_in|].
  apply in_map. apply both_in.
Qed.
Definition cops_all : list cop :=
  map CSetClass (zrange 32) ++ map CSetSynthetic both ++ map CSetKeyPoint both ++ map CSetWithheld both.

Lemma class_sweep :
  forallb (fun a => forallb (fun o =>
     match cop_run (class_byte a) o with Ok f => f =? class_byte (cop_spec a o) | _ => false end) cops_all
     && (class_get (class_byte a) =? ac_cls a)
     && Bool.eqb (class_is_synthetic (class_byte a)) (ac_syn a)
     && Bool.eqb (class_is_keypoint (class_byte a)) (ac_key a)
     && Bool.eqb (class_is_withheld (class_byte a)) (ac_wit a)) aclass_all = true.
Proof. vm_compute. reflexivity. Qed.

Lemma class_step a o : 0 <= ac_cls a < 32 -> cop_typed o ->
  if cop_accepts o
  then cop_run (class_byte a) o = Ok (class_byte (cop_spec a o)) /\ 0 <= ac_cls (cop_spec a o) < 32
  else cop_run (class_byte a) o = Throw EOutOfRange.
Proof.
  intros Ha Ht. destruct (cop_accepts o) eqn:Hacc.
  - pose proof class_sweep as H. rewrite forallb_forall in H. specialize (H a (aclass_all_in a Ha)).
    rewrite !andb_true_iff in H. destruct H as ((((H & _) & _) & _) & _).
    rewrite forallb_forall in H.
    assert (Hin : In o cops_all).
    { unfold cops_all. destruct o as [n|b|b|b]; cbn [cop_typed cop_accepts] in *; unfold in_unsigned in *.
      - apply in_or_app. left. apply in_map. apply zrange_in. change (Z.of_nat 32) with 32. lia.
      - apply in_or_app; right. apply in_or_app; left. apply in_map, both_in.
      - apply in_or_app; right. apply in_or_app; right. apply in_or_app; left. apply in_map, both_in.
      - apply in_or_app; right. apply in_or_app; right. apply in_or_app; right. apply in_map, both_in. }
    specialize (H o Hin). destruct (cop_run (class_byte a) o); try discriminate.
    apply Z.eqb_eq in H. subst. split; [reflexivity|].
    destruct o; cbn [cop_spec ac_cls cop_accepts cop_typed] in *; unfold in_unsigned in *; lia.
  - destruct o as [n|b|b|b]; cbn [cop_accepts] in Hacc; try discriminate.
    cbn [cop_run cop_typed] in *. unfold class_set, check_class_index, class_table_size in *.
    replace (32 - 1 <? n) with true by lia. reflexivity.
Qed.

Lemma class_read a : 0 <= ac_cls a < 32 ->
  class_get (class_byte a) = ac_cls a /\ class_is_synthetic (class_byte a) = ac_syn a /\
  class_is_keypoint (class_byte a) = ac_key a /\ class_is_withheld (class_byte a) = ac_wit a.
Proof.
  intros Ha. pose proof class_sweep as H. rewrite forallb_forall in H. specialize (H a (aclass_all_in a Ha)).
  rewrite !andb_true_iff in H. destruct H as ((((_ & H1) & H2) & H3) & H4).
  rewrite Z.eqb_eq in H1. rewrite Bool.eqb_true_iff in H2, H3, H4. auto.
Qed.

(** Exceptions are caught and the object kept. *)
Fixpoint cops_run (f : Z) (os : list cop) : outcome Z :=
  match os with
  | [] => Ok f
  | o :: r => match cop_run f o with Ok f1 => cops_run f1 r | Throw _ => cops_run f r | UB u => UB u end
  end.

Lemma class_history os : forall a, 0 <= ac_cls a < 32 -> Forall cop_typed os ->
  let a' := fold_left cop_spec (filter cop_accepts os) a in
  cops_run (class_byte a) os = Ok (class_byte a') /\ 0 <= ac_cls a' < 32.
Proof.
  induction os as [|o os IH]; intros a Ha Ht; cbv zeta; cbn [cops_run filter fold_left].
  - auto.
  - inversion Ht as [|? ? H1 H2]; subst. pose proof (class_step a o Ha H1) as S.
    destruct (cop_accepts o).
    + destruct S as [-> S2]. cbn [fold_left]. apply (IH (cop_spec a o) S2 H2).
    + rewrite S. apply (IH a Ha H2).
Qed.

(** Every byte is the encoding of exactly one abstract classification. *)
Lemma class_byte_surj f : 0 <= f < 256 -> exists a, 0 <= ac_cls a < 32 /\ class_byte a = f.
Proof.
  intros Hf.
  exists (mkAclass (f mod 32) (Z.odd (f / 32)) (Z.odd (f / 64)) (Z.odd (f / 128))).
  cbn [ac_cls]. split; [apply Z.mod_pos_bound; lia|].
  unfold class_byte. cbn [ac_cls ac_syn ac_key ac_wit].
  assert (E : forall x, Z.b2z (Z.odd x) = x mod 2) by (intros; rewrite Zmod_odd; destruct (Z.odd x); reflexivity).
  rewrite !E. Z.to_euclidean_division_equations. lia.
Qed.

Lemma class_make_ok cls s k w : in_unsigned 32 cls ->
  class_make cls s k w = if cls <=? 31 then Ok (class_byte (mkAclass cls s k w)) else Throw EOutOfRange.
Proof.
  intros Hc. unfold class_make.
  pose proof (class_step (mkAclass 0 false false false) (CSetClass cls) ltac:(cbn; lia) Hc) as S.
  cbn [cop_accepts cop_run cop_spec] in S. change (class_byte (mkAclass 0 false false false)) with 0 in S.
  destruct (cls <=? 31) eqn:Hle; [|rewrite S; reflexivity].
  destruct S as [-> S2]. cbn [obind]. f_equal. cbn [ac_syn ac_key ac_wit ac_cls] in *.
  unfold class_set_synthetic, class_set_keypoint, class_set_withheld.
  pose proof (class_step (mkAclass cls s false false) (CSetKeyPoint k) S2 I) as (E2 & _).
  pose proof (class_step (mkAclass cls s k false) (CSetWithheld w) S2 I) as (E3 & _).
  cbn [cop_run cop_spec ac_cls ac_syn ac_key ac_wit] in E2, E3.
  unfold class_set_keypoint in E2. unfold class_set_withheld in E3.
  injection E2 as E2. injection E3 as E3.
  pose proof (class_step (mkAclass cls false false false) (CSetSynthetic s) S2 I) as (E4 & _).
  cbn [cop_run cop_spec ac_cls ac_syn ac_key ac_wit] in E4. unfold class_set_synthetic in E4. injection E4 as E4.
  rewrite E4, E2, E3. reflexivity.
Qed.

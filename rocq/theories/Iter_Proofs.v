(** Proofs about the iterators. *)
From Coq Require Import ZArith List Bool Lia String.
From Coq Require Import ZifyBool ZifyNat.
Import ListNotations.
From Verif Require Import Outcome Bytes Float64 Float64_Proofs CStr Vlr_Model Schema_Model Header_Model Point_Model Stream_Model Stream_Proofs
  IO_Spec Reader_Model Reader_Spec Reader_Api Reader_Open Reader_Hist IO_Extra Prop_Reader Writer_Model Writer_Api Iter_Spec Iter_Model.
Local Open Scope Z_scope.
Local Notation length := List.length (only parsing).

Lemma set_nth_length {A} (l : list A) k x : length (set_nth l k x) = length l.
Proof.
  unfold set_nth. rewrite app_length, firstn_length.
  destruct (skipn k l) as [|y t] eqn:E; pose proof (skipn_length k l) as H; rewrite E in H; cbn [List.length] in *; lia.
Qed.
Lemma set_nth_cons {A} (a : A) l k x : set_nth (a :: l) (S k) x = a :: set_nth l k x.
Proof. reflexivity. Qed.
Lemma set_nth_same {A} (l : list A) : forall k x, (k < length l)%nat -> nth_error (set_nth l k x) k = Some x.
Proof. induction l as [|a l IH]; intros [|k] x H; cbn [List.length] in H; try lia; [reflexivity|]. rewrite set_nth_cons. cbn [nth_error]. apply IH. lia. Qed.
Lemma set_nth_id {A} (l : list A) : forall k x, nth_error l k = Some x -> set_nth l k x = l.
Proof. induction l as [|a l IH]; intros [|k] x H; cbn [nth_error] in H; try discriminate; [injection H as ->; reflexivity|]. rewrite set_nth_cons. f_equal. now apply IH. Qed.
Lemma set_nth_twice {A} (l : list A) : forall k x y, set_nth (set_nth l k x) k y = set_nth l k y.
Proof. induction l as [|a l IH]; intros [|k] x y; try reflexivity. rewrite !set_nth_cons. f_equal. apply IH. Qed.

Definition any_xml : vlr -> outcome schema := fun _ => Throw ERuntime.
(** A reader at a cursor. *)
Definition reads (c : list Z * Z * list Z) (r : reader) : Prop :=
  a_file (fst (fst c)) /\ rcur (fst (fst c)) r (snd (fst c)) /\ r_data r = snd c.

Lemma Forall2_set {A B} (R : A -> B -> Prop) l m : Forall2 R l m -> forall k x y, R x y -> Forall2 R (set_nth l k x) (set_nth m k y).
Proof.
  induction 1 as [|a b l m Hab H IH]; intros k x y Hxy.
  - destruct k; constructor.
  - destruct k as [|k]; [constructor; assumption|]. rewrite !set_nth_cons. constructor; [assumption|now apply IH].
Qed.
Lemma Forall2_nth {A B} (R : A -> B -> Prop) l m : Forall2 R l m -> forall k x, nth_error l k = Some x -> exists y, nth_error m k = Some y /\ R x y.
Proof.
  induction 1 as [|a b l m Hab H IH]; intros [|k] x E; cbn [nth_error] in *; try discriminate.
  - injection E as ->. eauto.
  - now apply IH.
Qed.

Lemma next_reads F c d r : reads (F, c, d) r ->
  exists r1, reader_next no_filter no_transform r tt = ((r1, tt), Ok (c <? f_npts F)) /\
    reads (if c <? f_npts F then (F, c + 1, file_record F c) else (F, c, d)) r1 /\ r_hdr r1 = r_hdr r.
Proof.
  intros (HA & HR & HD). cbn [fst snd] in *. pose proof HA as (HF & HN & HS & HC).
  destruct (rcur_step any_xml F r c RNext HF HN HS HC I eq_refl HR) as (r1 & E & R1 & D1).
  cbn [rop_run] in E. destruct (reader_next no_filter no_transform r tt) as [[r2 u] a] eqn:EN. destruct u. cbn [fst] in E.
  injection E as -> E. exists r1.
  assert (EH : r_hdr r1 = r_hdr r).
  { clear - EN. unfold reader_next, impl_next in EN. 
    set (r0 := if r_current r =? 0 then _ else r) in EN. assert (H0 : r_hdr r0 = r_hdr r) by (unfold r0; destruct (r_current r =? 0); reflexivity).
    destruct (r_size r0 <=? r_current r0); [injection EN; intros; subst; exact H0|].
    unfold read_counted in EN. destruct (read_record _ _ _) as [[d1 s1]|e|u] eqn:ER.
    - cbn [filtered_part no_filter no_transform] in EN. injection EN; intros; subst. exact H0.
    - destruct e; injection EN; intros; subst; exact H0.
    - injection EN; intros; subst. exact H0. }
  split; [|split; [|exact EH]].
  - f_equal. cbn [cur_step snd] in E. destruct (c <? f_npts F); cbn [snd] in E; destruct a as [[|]|e|u]; cbn [ans of_bool] in E; congruence.
  - cbn [cur_step] in R1, D1. destruct (c <? f_npts F); cbn [fst snd] in *; split; cbn [fst snd]; auto. split; [exact R1|congruence].
Qed.

Lemma getval_reads cs st : Forall2 reads cs st -> forall p cs1 p1, step_on cs p = Some (cs1, p1) ->
  exists st1, getval st p = (st1, Ok p1) /\ Forall2 reads cs1 st1.
Proof.
  intros H [k|] cs1 p1 E; cbn [step_on getval] in *.
  - destruct (nth_error cs k) as [[[F c] d]|] eqn:EK; [|discriminate].
    destruct (Forall2_nth _ _ _ H k _ EK) as (r & -> & HR). destruct (next_reads F c d r HR) as (r1 & -> & HR1 & _). cbn [fst obind].
    destruct (c <? f_npts F); injection E as <- <-; eexists; (split; [reflexivity|]).
    + now apply Forall2_set.
    + rewrite <- (set_nth_id cs k (F, c, d) EK). now apply Forall2_set.
  - injection E as <- <-. eauto.
Qed.

Lemma iops_reads ops : forall cs st its l, Forall2 reads cs st -> spec_run (cs, its) ops = Some l -> iops_run st its ops = Ok l.
Proof.
  induction ops as [|o ops IH]; intros cs st its l H E; cbn [spec_run iops_run] in *; [congruence|].
  destruct (spec_step (cs, its) o) as [[[cs1 its1] x]|] eqn:ES; [|discriminate].
  destruct (spec_run (cs1, its1) ops) as [l1|] eqn:EL; [|discriminate]. injection E as <-.
  assert (G : exists st1, iop_run st its o = Ok (st1, its1, x) /\ Forall2 reads cs1 st1).
  { unfold spec_step in ES. destruct o as [k| |i|i|i|i|i j]; cbn [iop_run]; unfold riter, store, place in *.
    - destruct (step_on cs (Some k)) as [[cs2 p]|] eqn:EP; [|discriminate]. injection ES; intros; subst. unfold it_begin.
      destruct (getval_reads _ _ H _ _ _ EP) as (st1 & -> & H1). cbn [obind]. eauto.
    - injection ES; intros; subst. eauto.
    - destruct (nth_error its i); [|discriminate]. injection ES; intros; subst. eauto.
    - destruct (nth_error its i) as [p|]; [|discriminate]. destruct (step_on cs p) as [[cs2 p1]|] eqn:EP; [|discriminate].
      injection ES; intros; subst. unfold it_inc. destruct (getval_reads _ _ H _ _ _ EP) as (st1 & -> & H1). cbn [obind]. eauto.
    - destruct (nth_error its i) as [p|]; [|discriminate]. destruct (step_on cs p) as [[cs2 p1]|] eqn:EP; [|discriminate].
      injection ES; intros; subst. unfold it_post, it_inc. destruct (getval_reads _ _ H _ _ _ EP) as (st1 & -> & H1). cbn [obind]. eauto.
    - destruct (nth_error its i) as [[k|]|]; [|injection ES; intros; subst; cbn [it_deref]; eauto|discriminate].
      destruct (nth_error cs k) as [[[F c] d]|] eqn:EK; [|discriminate]. destruct (Forall2_nth _ _ _ H k _ EK) as (r & ER & HR).
      cbn [it_deref]. rewrite ER. destruct HR as (_ & _ & ->). injection ES; intros; subst. eauto.
    - destruct (nth_error its i) as [p|]; [|discriminate]. destruct (nth_error its j) as [q|]; [|discriminate].
      injection ES; intros; subst. exists st. split; [|exact H]. reflexivity. }
  destruct G as (st1 & -> & H1). cbn [obind]. rewrite (IH _ _ _ _ H1 EL). reflexivity.
Qed.

Lemma open_reads xml doy year F : a_file F -> exists r, reader_open xml doy year F = Ok r /\ reads (opened F) r /\ header_wf (r_hdr r).
Proof.
  intros HA. pose proof HA as (HF & HN & HS & HC). destruct (open_ok xml doy year F HF HN) as (r & E & Hi & Hc & Hd & _ & _ & HW).
  exists r. split; [exact E|]. split; [|exact HW]. split; [exact HA|]. split; [|exact Hd]. cbn [opened fst snd].
  split; [exact Hi|]. split; [exact Hc|]. destruct (fields_nonneg F (proj1 HF)). split; lia.
Qed.

(** Records numbered from [a] on, first one taken off. *)
Lemma records_from_step F a : 0 <= a < f_npts F -> records_from F a = file_record F a :: records_from F (a + 1).
Proof.
  intros H. unfold records_from. replace (Z.to_nat (f_npts F - a)) with (S (Z.to_nat (f_npts F - (a + 1)))) by lia.
  cbn [seq map]. f_equal; [f_equal; lia|]. rewrite <- seq_shift, map_map. apply map_ext. intros i. f_equal. lia.
Qed.
Lemma records_from_end F a : f_npts F <= a -> records_from F a = [].
Proof. intros H. unfold records_from. replace (Z.to_nat (f_npts F - a)) with O by lia. reflexivity. Qed.

Lemma it_equal_end_some k : it_equal (Some k) it_end = false.
Proof. reflexivity. Qed.

(** The loop from a reader that has just delivered record [c - 1]. *)
Lemma for_each_reads k : forall n F c d st r fuel, nth_error st k = Some r -> reads (F, c, d) r -> 0 <= c ->
  Z.to_nat (f_npts F - c) = n -> (n + 2 <= fuel)%nat ->
  exists r1, for_each fuel st (Some k) it_end = Ok (d :: records_from F c, set_nth st k r1, None) /\
    reads (F, Z.max c (f_npts F), last (records_from F c) d) r1 /\ r_hdr r1 = r_hdr r.
Proof.
  induction n as [|n IH]; intros F c d st r fuel EK HR Hc En Hf; destruct fuel as [|fuel]; try lia; cbn [for_each];
    rewrite it_equal_end_some; cbn [it_deref]; rewrite EK; destruct (next_reads F c d r HR) as (r1 & EN & HR1 & EH);
    unfold it_inc; cbn [getval]; rewrite EK, EN; cbn [fst obind]; pose proof HR as (_ & _ & ED); cbn [snd] in ED; rewrite ED.
  - destruct (Z.ltb_spec c (f_npts F)); [lia|]. destruct fuel as [|fuel]; [lia|]. cbn [for_each it_end it_equal obind].
    exists r1. rewrite records_from_end by lia. split; [reflexivity|]. cbn [last]. rewrite Z.max_l by lia. now split.
  - destruct (Z.ltb_spec c (f_npts F)) as [L|L]; [|lia].
    destruct (IH F (c + 1) (file_record F c) (set_nth st k r1) r1 fuel) as (r2 & E2 & HR2 & EH2); try assumption; try lia.
    { apply set_nth_same. apply nth_error_Some. congruence. }
    rewrite E2. cbn [obind]. rewrite set_nth_twice. rewrite (records_from_step F c) by lia. exists r2. split; [reflexivity|].
    rewrite Z.max_r in HR2 |- * by lia. split; [|congruence].
    assert (GL : last (file_record F c :: records_from F (c + 1)) d = last (records_from F (c + 1)) (file_record F c)).
    { generalize (file_record F c). generalize (records_from F (c + 1)). clear. intros l. revert d. induction l as [|x l IH]; intros d a; [reflexivity|].
      change (last (a :: x :: l) d) with (last (x :: l) d). rewrite (IH d x). change (last (x :: l) a) with (last (x :: l) a). now rewrite (IH a x). }
    rewrite GL. exact HR2.
Qed.

Lemma for_each_all k F st r fuel : nth_error st k = Some r -> reads (opened F) r -> (Z.to_nat (f_npts F) + 2 <= fuel)%nat ->
  exists st1 it st2, it_begin st k = (st1, Ok it) /\
    for_each fuel st1 it it_end = Ok (records_from F 0, st2, it_end).
Proof.
  intros EK HR Hf. pose proof HR as (HA & _). cbn [opened fst] in HA. destruct (fields_nonneg F (proj1 (proj1 HA))) as (_ & N0 & _).
  unfold it_begin. cbn [getval]. rewrite EK. destruct (next_reads F 0 _ r HR) as (r1 & EN & HR1 & EH). rewrite EN. cbn [fst obind].
  destruct (Z.ltb_spec 0 (f_npts F)) as [L|L].
  - destruct (for_each_reads k (Z.to_nat (f_npts F - 1)) F (0 + 1) (file_record F 0) (set_nth st k r1) r1 fuel) as (r2 & E2 & _); try assumption; try lia.
    { apply set_nth_same. apply nth_error_Some. congruence. }
    eexists _, _, _. split; [reflexivity|]. rewrite E2, (records_from_step F 0) by lia. reflexivity.
  - eexists _, _, _. split; [reflexivity|]. destruct fuel as [|fuel]; [lia|]. cbn [for_each it_equal it_end]. rewrite records_from_end by lia. reflexivity.
Qed.

Lemma copy_reads k : forall n F c d st r fuel w, nth_error st k = Some r -> reads (F, c, d) r -> 0 <= c ->
  Z.to_nat (f_npts F - c) = n -> (n + 2 <= fuel)%nat ->
  forall w1, write_points w (map (fun x => mkPoint x (r_hdr r)) (d :: records_from F c)) = Ok w1 ->
  exists st1, copy_points fuel st (Some k) it_end w = Ok (st1, w1).
Proof.
  induction n as [|n IH]; intros F c d st r fuel w EK HR Hc En Hf w1 EW; destruct fuel as [|fuel]; try lia; cbn [copy_points];
    rewrite it_equal_end_some, EK; destruct (next_reads F c d r HR) as (r1 & EN & HR1 & EH);
    unfold it_inc, out_assign, r_point; cbn [getval]; rewrite EK, EN; cbn [fst obind]; pose proof HR as (_ & _ & ED); cbn [snd] in ED; rewrite ED;
    cbn [map write_points] in EW; destruct (write_point w (mkPoint d (r_hdr r))) as [w2|e|u]; try discriminate; cbn [obind] in *.
  - destruct (Z.ltb_spec c (f_npts F)); [lia|]. destruct fuel as [|fuel]; [lia|]. cbn [copy_points it_end it_equal].
    rewrite records_from_end in EW by lia. cbn [map write_points] in EW. injection EW as ->. eauto.
  - destruct (Z.ltb_spec c (f_npts F)) as [L|L]; [|lia]. rewrite (records_from_step F c) in EW by lia.
    eapply (IH F (c + 1) (file_record F c) (set_nth st k r1) r1 fuel); try eassumption; try lia.
    { apply set_nth_same. apply nth_error_Some. congruence. }
    rewrite EH. exact EW.
Qed.

Lemma copy_all k F st r fuel w w1 : nth_error st k = Some r -> reads (opened F) r -> (Z.to_nat (f_npts F) + 2 <= fuel)%nat ->
  write_points w (map (fun x => mkPoint x (r_hdr r)) (records_from F 0)) = Ok w1 ->
  exists st1 it st2, it_begin st k = (st1, Ok it) /\ copy_points fuel st1 it it_end w = Ok (st2, w1).
Proof.
  intros EK HR Hf EW. pose proof HR as (HA & _). cbn [opened fst] in HA. destruct (fields_nonneg F (proj1 (proj1 HA))) as (_ & N0 & _).
  unfold it_begin. cbn [getval]. rewrite EK. destruct (next_reads F 0 _ r HR) as (r1 & EN & HR1 & EH). rewrite EN. cbn [fst obind].
  destruct (Z.ltb_spec 0 (f_npts F)) as [L|L].
  - destruct (copy_reads k (Z.to_nat (f_npts F - 1)) F (0 + 1) (file_record F 0) (set_nth st k r1) r1 fuel w) with (w1 := w1) as (st2 & E2); try assumption; try lia.
    { apply set_nth_same. apply nth_error_Some. congruence. }
    { rewrite EH, <- (records_from_step F 0) by lia. exact EW. }
    eexists _, _, _. split; [reflexivity|]. exact E2.
  - eexists _, _, _. split; [reflexivity|]. destruct fuel as [|fuel]; [lia|]. cbn [copy_points it_equal it_end].
    rewrite records_from_end in EW by lia. cbn [map write_points] in EW. injection EW as ->. reflexivity.
Qed.


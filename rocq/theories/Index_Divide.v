(** Dividing a cell of the index into parts keeps exactly its points. *)
From Coq Require Import ZArith List Bool Lia Sorted.
From Coq Require Import ZifyBool ZifyNat.
Import ListNotations.
From Verif Require Import Outcome Bytes Float64 Bounds_Model Chipper_Spec Chipper_Lists Index_Cell Index_Temp Index_Scan Index_Out Index_Query Index_Spec Index_Items Index_Image Index_ScanProofs Index_Build.
Local Open Scope Z_scope.
Local Notation length := List.length (only parsing).

(** ** The sorted map *)
Definition keys_sorted {A} (m : list (Z * A)) : Prop := StronglySorted Z.lt (map fst m).

Lemma im_find_same {A} a (v : A) m : im_find a (im_set a v m) = Some v.
Proof.
  induction m as [|[k w] m IH]; cbn [im_set im_find]; [now rewrite Z.eqb_refl|].
  destruct (a <? k); [cbn [im_find]; now rewrite Z.eqb_refl|]. destruct (Z.eqb_spec a k) as [->|N]; cbn [im_find]; [now rewrite Z.eqb_refl|].
  destruct (Z.eqb_spec a k); [lia|exact IH].
Qed.
Lemma im_find_other {A} a b (v : A) m : b <> a -> im_find b (im_set a v m) = im_find b m.
Proof.
  intros N. induction m as [|[k w] m IH]; cbn [im_set im_find].
  - destruct (Z.eqb_spec b a); [lia|reflexivity].
  - destruct (a <? k); [cbn [im_find]; destruct (Z.eqb_spec b a); [lia|reflexivity]|].
    destruct (Z.eqb_spec a k) as [->|N2]; cbn [im_find]; [destruct (Z.eqb_spec b k); [lia|reflexivity]|]. now rewrite IH.
Qed.
Lemma im_set_keys {A} a (v : A) m b : In b (map fst (im_set a v m)) -> b = a \/ In b (map fst m).
Proof.
  induction m as [|[k w] m IH]; cbn [im_set map fst In].
  - intros [H|[]]; auto.
  - destruct (a <? k); [cbn [map fst In]; intros [H|H]; auto|]. destruct (Z.eqb_spec a k) as [->|]; cbn [map fst In]; intros [H|H]; auto. apply IH in H. tauto.
Qed.
Lemma im_set_sorted {A} a (v : A) m : keys_sorted m -> keys_sorted (im_set a v m).
Proof.
  unfold keys_sorted. induction m as [|[k w] m IH]; cbn [im_set map fst]; intros H; [repeat constructor|].
  inversion H as [|? ? S1 S2]; subst. destruct (Z.ltb_spec a k).
  - cbn [map fst]. constructor; [exact H|]. constructor; [assumption|]. eapply Forall_impl; [|exact S2]. intros b Hb. cbv beta in Hb. lia.
  - destruct (Z.eqb_spec a k) as [->|N]; cbn [map fst]; [exact H|]. constructor; [now apply IH|].
    rewrite Forall_forall in *. intros b Hb. apply im_set_keys in Hb. destruct Hb as [->|Hb]; [lia|now apply S2].
Qed.
Lemma im_find_In {A} m : keys_sorted m -> forall a (v : A), In (a, v) m -> im_find a m = Some v.
Proof.
  unfold keys_sorted. induction m as [|[k w] m IH]; cbn [map fst]; intros H a v Hv; [destruct Hv|]. inversion H as [|? ? S1 S2]; subst. cbn [im_find].
  destruct Hv as [Hv|Hv].
  - pose proof (f_equal fst Hv). pose proof (f_equal snd Hv). cbn [fst snd] in *. subst. now rewrite Z.eqb_refl.
  - assert (k < a) by (rewrite Forall_forall in S2; apply S2; apply (in_map fst) in Hv; exact Hv). destruct (Z.eqb_spec a k); [lia|now apply IH].
Qed.
Lemma In_im_find {A} m a (v : A) : im_find a m = Some v -> In (a, v) m.
Proof.
  induction m as [|[k w] m IH]; cbn [im_find]; intros H; [discriminate|]. destruct (Z.eqb_spec a k) as [->|]; [left; congruence|right; now apply IH].
Qed.
Lemma sorted_nodup l : StronglySorted Z.lt l -> NoDup l.
Proof. induction 1 as [|a l H IH HF]; constructor; [|exact IH]. intros K. rewrite Forall_forall in HF. specialize (HF _ K). lia. Qed.

Lemma nodup_app {A} (a b : list A) : NoDup a -> NoDup b -> (forall x, In x a -> In x b -> False) -> NoDup (a ++ b).
Proof.
  induction 1 as [|x a N H IH]; intros HB HX; [exact HB|]. cbn [app]. constructor.
  - intros K. apply in_app_or in K. destruct K as [K|K]; [contradiction|]. apply (HX x); [now left|exact K].
  - apply IH; [exact HB|]. intros y Y1 Y2. apply (HX y); [now right|exact Y2].
Qed.

Lemma run_bytes_length (r : runs) : lenB (Index_Out.run_bytes r) = 5 * lenB r.
Proof. induction r as [|p r IH]; [reflexivity|]. unfold Index_Out.run_bytes. cbn [flat_map]. fold (Index_Out.run_bytes r). rewrite !app_length, !le_enc_length. cbn [List.length]. lia. Qed.

(** ** What the parts hold *)
Section Divide.
Variables (pts : list coords) (part : coords -> outcome (option Z)) (key : coords -> Z) (parts : Z).
Hypothesis Hpart : forall p, part p = Ok (Some (key p)).
Hypothesis Hkey : forall p, 0 <= key p < parts.
Hypothesis Hparts : parts < 2 ^ 32.

Definition kid (i : Z) : Z := key (pt_at pts i).
(** the runs of one part, which holds the points [l] *)
Definition holds_ids (r : runs) (l : list Z) : Prop :=
  r <> [] /\ expand r = l /\ ascending r /\ Forall (fun p => 0 <= fst p /\ 1 <= snd p <= 255) r.
Record dinv (done : list Z) (m : subs) : Prop := {
  d_sorted : keys_sorted m;
  d_keys : Forall (fun s => 0 <= fst s < parts) m;
  d_find : forall s, match im_find s m with
                     | Some r => holds_ids r (filter (fun i => kid i =? s) done)
                     | None => filter (fun i => kid i =? s) done = []
                     end }.

Lemma run_first_in (r : runs) p : In p r -> 1 <= snd p -> In (fst p) (expand r) /\ In (fst p + snd p - 1) (expand r).
Proof. intros H1 H2. unfold expand. split; apply in_flat_map; exists p; (split; [exact H1|]); apply zseq_In; lia. Qed.
Lemma holds_below r l b : holds_ids r l -> Forall (fun i => i < b) l -> below b r.
Proof.
  intros (_ & E & _ & F) H. unfold below. rewrite Forall_forall in *. intros p Hp. specialize (F p Hp). cbv beta in F. apply H. rewrite <- E. apply (run_first_in r p Hp). lia.
Qed.

Lemma dinv_add done m id : dinv done m -> Forall (fun i => i < id) done -> 0 <= id ->
  dinv (done ++ [id]) (sub_add m (kid id) id) /\ exists front, im_find (kid id) (sub_add m (kid id) id) = Some (front ++ [(id, 1)]).
Proof.
  intros [A B C] HD H0.
  assert (HF : Forall (fun i => i < id) (filter (fun i => kid i =? kid id) done)).
  { rewrite Forall_forall in *. intros i Hi. apply filter_In in Hi. now apply HD. }
  assert (X : exists front, sub_add m (kid id) id = im_set (kid id) (front ++ [(id, 1)]) m /\ holds_ids (front ++ [(id, 1)]) (filter (fun i => kid i =? kid id) done ++ [id])).
  { unfold sub_add. pose proof (C (kid id)) as CK. destruct (im_find (kid id) m) as [r|].
    - pose proof (holds_below r _ id CK HF) as BE. destruct CK as (R1 & R2 & R3 & R4). exists r. rewrite (im_set_end id 1 r) by exact BE. split; [reflexivity|].
      split; [destruct r; discriminate|]. split; [rewrite expand_app, expand_one, R2; change (Z.to_nat 1) with 1%nat; now rewrite (zseq_S id 0)|].
      split; [now apply ascending_end|]. apply Forall_app. split; [exact R4|]. repeat constructor; cbn [fst snd]; lia.
    - exists []. cbn [app]. split; [reflexivity|]. rewrite CK. cbn [app]. split; [discriminate|]. split; [rewrite expand_one; change (Z.to_nat 1) with 1%nat; now rewrite (zseq_S id 0)|].
      split; [repeat constructor|]. repeat constructor; cbn [fst snd]; lia. }
  destruct X as (front & E & HH). rewrite E. split; [|exists front; apply im_find_same].
  constructor.
  - now apply im_set_sorted.
  - rewrite Forall_forall in *. intros s Hs. apply (in_map fst) in Hs. apply im_set_keys in Hs. destruct Hs as [->|Hs]; [apply Hkey|].
    apply in_map_iff in Hs. destruct Hs as (s' & <- & Hs). now apply B.
  - intros s. rewrite filter_app. cbn [filter]. destruct (Z.eqb_spec (kid id) s) as [<-|N].
    + rewrite im_find_same. exact HH.
    + rewrite im_find_other by lia. rewrite app_nil_r. apply C.
Qed.

Lemma dinv_inc done m id first c front : dinv done m -> Forall (fun i => i < id) done -> 0 <= id ->
  im_find (kid id) m = Some (front ++ [(first, c)]) -> first + c = id -> c < 255 ->
  exists m', sub_increment m (kid id) first = Some m' /\ dinv (done ++ [id]) m' /\ im_find (kid id) m' = Some (front ++ [(first, c + 1)]).
Proof.
  intros [A B C] HD H0 HF HE HC. pose proof (C (kid id)) as CK. rewrite HF in CK. destruct CK as (R1 & R2 & R3 & R4).
  destruct (ascending_split _ _ _ R3) as (S1 & S2). apply Forall_app in R4. destruct R4 as (R4 & R5). apply Forall_inv in R5. cbn [fst snd] in R5.
  exists (im_set (kid id) (front ++ [(first, c + 1)]) m). unfold sub_increment. rewrite HF, (im_find_end first c front S2). replace (c <? 255) with true by lia.
  rewrite (im_set_last first (c + 1) c front S2). split; [reflexivity|]. split; [|apply im_find_same]. constructor.
  - now apply im_set_sorted.
  - rewrite Forall_forall in *. intros s Hs. apply (in_map fst) in Hs. apply im_set_keys in Hs. destruct Hs as [->|Hs]; [apply Hkey|].
    apply in_map_iff in Hs. destruct Hs as (s' & <- & Hs). now apply B.
  - intros s. rewrite filter_app. cbn [filter]. destruct (Z.eqb_spec (kid id) s) as [<-|N].
    + rewrite im_find_same. rewrite <- R2, expand_app, expand_one. split; [destruct front; discriminate|]. split; [|split].
      * rewrite expand_app, expand_one, <- app_assoc. f_equal. replace (Z.to_nat (c + 1)) with (S (Z.to_nat c)) by lia. rewrite zseq_snoc. f_equal. f_equal. lia.
      * now apply ascending_end.
      * apply Forall_app. split; [exact R4|]. repeat constructor; cbn [fst snd]; lia.
    + rewrite im_find_other by lia. rewrite app_nil_r. apply C.
Qed.

Lemma divide_run_ok n : forall done id first last m, 0 <= id -> id + Z.of_nat n <= lenB pts -> Forall (fun i => i < id) done -> dinv done m ->
  (last = 2 ^ 32 - 1 \/ exists front c, im_find last m = Some (front ++ [(first, c)]) /\ first + c = id) ->
  exists m', divide_run pts part n id first last m = Ok (Some m') /\ dinv (done ++ zseq id n) m'.
Proof.
  induction n as [|n IH]; intros done id first last m H0 H1 HD HI HL; cbn [divide_run].
  - exists m. change (zseq id 0) with (@nil Z). rewrite app_nil_r. now split.
  - assert (EN : nth_error pts (Z.to_nat id) = Some (pt_at pts id)) by (apply nth_error_nth'; lia). rewrite EN, Hpart. cbn [obind].
    change (key (pt_at pts id)) with (kid id). rewrite zseq_S.
    assert (HD' : Forall (fun i => i < id + 1) (done ++ [id])).
    { apply Forall_app. split; [eapply Forall_impl; [|exact HD]; intros i Hi; cbv beta in Hi |- *; lia|]. repeat constructor. lia. }
    change (id :: zseq (id + 1) n) with ([id] ++ zseq (id + 1) n). rewrite app_assoc.
    pose proof (Hkey (pt_at pts id)) as HK. change (key (pt_at pts id)) with (kid id) in HK.
    assert (NEW : exists m', divide_run pts part n (id + 1) id (kid id) (sub_add m (kid id) id) = Ok (Some m') /\ dinv ((done ++ [id]) ++ zseq (id + 1) n) m').
    { destruct (dinv_add done m id HI HD H0) as (I2 & front & F2). apply (IH (done ++ [id])); [lia|lia|exact HD'|exact I2|]. right. exists front, 1. split; [exact F2|lia]. }
    destruct (Z.eqb_spec (kid id) last) as [E|N]; [|exact NEW].
    destruct HL as [HL|(front & c & HF & HE)]; [lia|]. rewrite <- E in HF.
    destruct (Z.ltb_spec c 255) as [LC|GC].
    + destruct (dinv_inc done m id first c front HI HD H0 HF HE LC) as (m' & E1 & I1 & F1). rewrite E1.
      apply (IH (done ++ [id])); [lia|lia|exact HD'|exact I1|]. right. exists front, (c + 1). rewrite <- E. split; [exact F1|lia].
    + assert (EI : sub_increment m (kid id) first = None).
      { unfold sub_increment. destruct HI as [A B C]. pose proof (C (kid id)) as CK. rewrite HF in CK. destruct CK as (R1 & R2 & R3 & R4). destruct (ascending_split _ _ _ R3) as (S1 & S2).
        rewrite HF, (im_find_end first c front S2). replace (c <? 255) with false by lia. reflexivity. }
      rewrite EI. exact NEW.
Qed.

Lemma sorted_app_l (a b : list Z) : StronglySorted Z.lt (a ++ b) -> forall x y, In x a -> In y b -> x < y.
Proof.
  induction a as [|z a IH]; cbn [app]; intros H x y Hx Hy; [destruct Hx|]. inversion H as [|? ? S1 S2]; subst. destruct Hx as [->|Hx]; [|now apply IH].
  rewrite Forall_forall in S2. apply S2. apply in_or_app. now right.
Qed.

Lemma divide_runs_ok l : forall done m, Forall (fun p => 0 <= fst p /\ 1 <= snd p <= 255) l -> Forall (fun i => i < lenB pts) (expand l) ->
  StronglySorted Z.lt (done ++ expand l) -> dinv done m ->
  exists m', divide_runs pts part l m = Ok (Some m') /\ dinv (done ++ expand l) m'.
Proof.
  induction l as [|[id n] l IH]; intros done m HR HB HS HI; cbn [divide_runs].
  - exists m. cbn [expand flat_map]. rewrite app_nil_r. now split.
  - pose proof (Forall_inv HR) as (R0 & R1). cbn [fst snd] in R0, R1.
    change (expand ((id, n) :: l)) with (expand ([(id, n)] ++ l)) in *. rewrite expand_app, expand_one in *.
    apply Forall_app in HB. destruct HB as (HB1 & HB2). rewrite Forall_forall in HB1.
    assert (EB : id + n <= lenB pts). { assert (id + n - 1 < lenB pts) by (apply HB1, zseq_In; lia). lia. }
    replace (lenB pts <? id) with false by lia. replace (id =? lenB pts) with false by lia.
    assert (HD : Forall (fun i => i < id) done).
    { rewrite Forall_forall. intros i Hi. apply (sorted_app_l _ _ HS i id Hi). apply in_or_app. left. apply zseq_In. lia. }
    destruct (divide_run_ok (Z.to_nat n) done id 0 (2 ^ 32 - 1) m R0 ltac:(lia) HD HI (or_introl eq_refl)) as (m1 & E1 & I1). rewrite E1. cbn [obind].
    rewrite app_assoc in HS. destruct (IH (done ++ zseq id (Z.to_nat n)) m1 (Forall_inv_tail HR) HB2 HS I1) as (m2 & E2 & I2).
    exists m2. split; [exact E2|]. now rewrite app_assoc.
Qed.

(** ** Consequences *)
Lemma dinv_member done m : dinv done m -> (forall s r i, In (s, r) m -> In i (expand r) -> In i done /\ kid i = s) /\
  (forall i, In i done -> exists r, In (kid i, r) m /\ In i (expand r)).
Proof.
  intros [A B C]. split.
  - intros s r i H1 H2. pose proof (C s) as CS. rewrite (im_find_In m A s r H1) in CS. destruct CS as (_ & E & _). rewrite E in H2. apply filter_In in H2. split; [tauto|]. destruct H2. lia.
  - intros i Hi. pose proof (C (kid i)) as CS. assert (X : In i (filter (fun j => kid j =? kid i) done)) by (apply filter_In; split; [exact Hi|apply Z.eqb_refl]).
    destruct (im_find (kid i) m) as [r|] eqn:E; [|rewrite CS in X; destruct X]. exists r. split; [now apply In_im_find|]. destruct CS as (_ & -> & _). exact X.
Qed.
Lemma dinv_nonempty done m : dinv done m -> done <> [] -> m <> [].
Proof. intros D N. destruct done as [|i done]; [contradiction|]. destruct (dinv_member _ _ D) as (_ & K). destruct (K i (or_introl eq_refl)) as (r & H & _). intros ->. destruct H. Qed.

Lemma zseq_sorted n : forall s, StronglySorted Z.lt (zseq s n).
Proof. induction n as [|n IH]; intros s; [constructor|]. rewrite zseq_S. constructor; [apply IH|]. apply Forall_forall. intros x Hx. apply zseq_In in Hx. lia. Qed.
Lemma filter_sorted (f : Z -> bool) l : StronglySorted Z.lt l -> StronglySorted Z.lt (filter f l).
Proof.
  induction 1 as [|a l H IH HF]; [constructor|]. cbn [filter]. destruct (f a); [|exact IH]. constructor; [exact IH|].
  rewrite Forall_forall in *. intros x Hx. apply filter_In in Hx. now apply HF.
Qed.

(** the points of all parts, in the order they are written *)
Definition all_ids (m : subs) : list Z := flat_map (fun s => expand (snd s)) m.
Lemma dinv_all_nodup done m : StronglySorted Z.lt done -> dinv done m -> NoDup (all_ids m).
Proof.
  intros HS [A B C]. assert (G : forall m', keys_sorted m' -> (forall s r, In (s, r) m' -> expand r = filter (fun i => kid i =? s) done) -> NoDup (all_ids m')).
  { induction m' as [|[s r] m' IH]; intros K1 K2; cbn [all_ids flat_map snd]; [constructor|]. fold (all_ids m'). inversion K1 as [|? ? S1 S2]; subst.
    assert (ND : NoDup (expand r)) by (rewrite (K2 s r (or_introl eq_refl)); apply sorted_nodup, filter_sorted, HS).
    assert (ND2 : NoDup (all_ids m')) by (apply IH; [exact S1|intros s' r' H'; apply K2; now right]).
    apply nodup_app; [exact ND|exact ND2|]. intros i H1 H2. rewrite (K2 s r (or_introl eq_refl)) in H1. apply filter_In in H1. unfold all_ids in H2. apply in_flat_map in H2. destruct H2 as ([s' r'] & H2 & H3). cbn [snd] in H3.
    rewrite (K2 s' r' (or_intror H2)) in H3. apply filter_In in H3. rewrite Forall_forall in S2. specialize (S2 s' (in_map fst _ _ H2)). lia. }
  apply G; [exact A|]. intros s r H. pose proof (C s) as CS. rewrite (im_find_In m A s r H) in CS. destruct CS as (_ & E & _). exact E.
Qed.
Lemma runs_le (r : runs) : Forall (fun p => 0 <= fst p /\ 1 <= snd p <= 255) r -> (length r <= length (expand r))%nat.
Proof.
  induction 1 as [|p r H HF IH]; [cbn; lia|]. change (p :: r) with ([p] ++ r). rewrite expand_app, !app_length. cbn [List.length]. destruct p as [a b]. rewrite expand_one, zseq_length. cbn [fst snd] in H. lia.
Qed.
Lemma dinv_size done m : StronglySorted Z.lt done -> dinv done m -> lenB (sub_bytes m) <= 8 * lenB m + 5 * lenB done /\ lenB m <= Z.max 0 parts.
Proof.
  intros HS D. pose proof (dinv_all_nodup _ _ HS D) as ND. destruct (dinv_member _ _ D) as (M1 & _). pose proof D as [A B C].
  assert (I : incl (all_ids m) done). { intros i Hi. unfold all_ids in Hi. apply in_flat_map in Hi. destruct Hi as ([s r] & H1 & H2). apply (M1 s r i H1 H2). }
  pose proof (NoDup_incl_length ND I) as LE. split.
  - assert (G : forall m', incl m' m -> lenB (sub_bytes m') <= 8 * lenB m' + 5 * lenB (all_ids m')).
    { induction m' as [|[s r] m' IH]; intros K; [cbn; lia|]. unfold sub_bytes, all_ids. cbn [flat_map fst snd]. fold (sub_bytes m') (all_ids m'). rewrite !app_length, !le_enc_length.
      pose proof (run_bytes_length r) as LR.
      assert (X : In (s, r) m) by (apply K; now left). pose proof (C s) as CS. rewrite (im_find_In m A s r X) in CS. destruct CS as (_ & _ & _ & F). pose proof (runs_le r F).
      specialize (IH (fun x H => K x (or_intror H))). cbn [List.length]. lia. }
    specialize (G m (incl_refl _)). lia.
  - assert (IK : incl (map fst m) (zseq 0 (Z.to_nat parts))). { intros s Hs. apply in_map_iff in Hs. destruct Hs as (x & <- & Hx). rewrite Forall_forall in B. specialize (B x Hx). cbv beta in B. apply zseq_In. lia. }
    pose proof (NoDup_incl_length (sorted_nodup _ A) IK) as L2. rewrite map_length, zseq_length in L2. lia.
Qed.
Lemma dinv_sub_in done m : lenB done < 2 ^ 32 -> Forall (fun i => i < lenB pts) done -> dinv done m -> Forall (sub_in pts) m.
Proof.
  intros HL HD D. destruct (dinv_member _ _ D) as (M1 & _). destruct D as [A B C]. rewrite Forall_forall. intros [s r] H. pose proof (C s) as CS. rewrite (im_find_In m A s r H) in CS.
  destruct CS as (_ & E & _ & F). rewrite Forall_forall in B. specialize (B _ H). cbn [fst] in B. split; [cbn [fst]; lia|]. cbn [snd]. split.
  - pose proof (runs_le r F) as X. rewrite E in X. pose proof (filter_length_le' (fun i => kid i =? s) done). lia.
  - rewrite Forall_forall in *. intros p Hp. specialize (F p Hp). cbv beta in F. destruct (run_first_in r p Hp ltac:(lia)) as (_ & K). apply (M1 s r _ H) in K. destruct K as (K & _). specialize (HD _ K). unfold run_in. lia.
Qed.
End Divide.

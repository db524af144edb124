(** Proofs for Cached_Model.v. *)
From Coq Require Import ZArith List Bool Lia String.
Import ListNotations.
From Verif Require Import Outcome Bytes Float64 Float64_Proofs CStr Vlr_Model Schema_Model Header_Model Point_Model Stream_Model Stream_Proofs
  IO_Spec Reader_Model Reader_Spec Reader_Api Reader_Hist Cached_Model Cached_Api Summary_Proofs.
Local Open Scope Z_scope.
Local Notation length := List.length (only parsing).

(** ** vectors *)
Lemma vset_ok {A} (l : list A) i x : 0 <= i < Z.of_nat (length l) -> vset l i x = Ok (list_set l (Z.to_nat i) x).
Proof. intros H. unfold vset. destruct (Z.leb_spec 0 i), (Z.ltb_spec i (Z.of_nat (length l))); cbn [andb]; (reflexivity || lia). Qed.
Lemma vget_ok {A} (l : list A) i d : 0 <= i < Z.of_nat (length l) -> vget l i = Ok (nth (Z.to_nat i) l d).
Proof.
  intros H. unfold vget. destruct (Z.ltb_spec i 0); [lia|]. rewrite (nth_error_nth' l d) by lia. reflexivity.
Qed.
Lemma unmark_ok n : forall m from, 0 <= from -> from + Z.of_nat n <= Z.of_nat (length m) ->
  exists m', unmark m from n = Ok m' /\ length m' = length m /\
    forall i, 0 <= i -> nth (Z.to_nat i) m' 0 = if (from <=? i) && (i <? from + Z.of_nat n) then 0 else nth (Z.to_nat i) m 0.
Proof.
  induction n as [|n IH]; intros m from H0 H1; cbn [unmark].
  - exists m. split; [reflexivity|]. split; [reflexivity|]. intros i Hi. destruct (Z.leb_spec from i), (Z.ltb_spec i (from + Z.of_nat 0)); cbn [andb]; (reflexivity || lia).
  - rewrite vset_ok by lia. cbn [obind]. destruct (IH (list_set m (Z.to_nat from) 0) (from + 1)) as (m' & E & L & N); [lia|rewrite length_list_set; lia|].
    exists m'. split; [exact E|]. split; [rewrite L; apply length_list_set|]. intros i Hi. rewrite N by exact Hi. rewrite nth_list_set by lia.
    destruct (Z.leb_spec (from + 1) i), (Z.ltb_spec i (from + 1 + Z.of_nat n)), (Z.leb_spec from i), (Z.ltb_spec i (from + Z.of_nat (S n))), (Nat.eqb_spec (Z.to_nat i) (Z.to_nat from)); cbn [andb]; (reflexivity || lia).
Qed.

(** mask = 1 exactly on [a, b) *)
Definition marks (m : list Z) (a b : Z) : Prop := forall i, 0 <= i -> nth (Z.to_nat i) m 0 = if (a <=? i) && (i <? b) then 1 else 0.

(** ** the reader part *)
Lemma rcur_reset F r : las_file F -> rinv F r -> rcur F (impl_reset (r_is r) (r_hdr r) (r_data r)) 0.
Proof.
  intros HF (A & B & C & D & E & G & H & I & J). destruct (fields_nonneg F (proj1 HF)) as (D0 & N0 & L0).
  split; [|split; [reflexivity|split; [lia|lia]]]. unfold rinv, impl_reset. cbn [r_hdr r_is r_size r_recsize r_data r_current].
  rewrite (is_seek_clean (r_is r) 0) by lia. split; [exact A|]. split; [exact B|]. split; [exact C|]. split; [discriminate|].
  split; [exact (shows_npts F _ A)|]. split; [exact (shows_bytes F _ HF A)|]. split; [exact H|]. split; [exact I|]. lia.
Qed.
Lemma rcur_data F r k d : rcur F r k -> length d = Z.to_nat (f_reclen F) -> bytes_ok d -> rcur F (rd_data r d) k.
Proof.
  intros ((A & B & C & D & E & G & H & I & J) & K & L & M) Hl Hb. split; [|split; [exact K|split; [exact L|exact M]]].
  unfold rinv, rd_data. cbn [r_hdr r_is r_size r_recsize r_data r_current]. tauto.
Qed.
Lemma record_facts F k : las_file F -> complete F -> 0 <= k < f_npts F -> length (file_record F k) = Z.to_nat (f_reclen F) /\ bytes_ok (file_record F k).
Proof.
  intros HF (HC1 & HC2) Hk. destruct (fields_nonneg F (proj1 HF)) as (D0 & N0 & L0). specialize (HC2 ltac:(lia)).
  assert (M : k * f_reclen F + f_reclen F <= f_npts F * f_reclen F) by nia. assert (0 <= k * f_reclen F) by nia.
  unfold file_record. split.
  - apply slice_length. lia.
  - unfold slice, bytes_ok. apply Forall_forall. intros x Hx. apply (proj1 (Forall_forall _ _) (proj1 HF)).
    rewrite <- (firstn_skipn (Z.to_nat (f_doff F + k * f_reclen F)) F), in_app_iff. right.
    rewrite <- (firstn_skipn (Z.to_nat (f_reclen F)) (skipn _ F)), in_app_iff. now left.
Qed.
Definition noxml (v : vlr) : outcome schema := Throw ERuntime.
Lemma uncached_ok F r k : las_file F -> no_schema_vlr F -> finite_scaling F -> complete F -> rcur F r k -> k < f_npts F ->
  exists r1, read_uncached no_transform r = (r1, Ok tt) /\ rcur F r1 (k + 1) /\ r_data r1 = file_record F k.
Proof.
  intros HF HN HS HC R L. destruct (rcur_step noxml F r k RNext HF HN HS HC I eq_refl R) as (r1 & E & R1 & D1).
  cbn [cur_step rop_run] in *. destruct (Z.ltb_spec k (f_npts F)); [|lia]. cbn [fst snd] in *.
  exists r1. split; [|split; [exact R1|exact D1]].
  unfold reader_next, impl_next, filtered_part, no_filter, read_counted in E. unfold read_uncached.
  set (r0 := if r_current r =? 0 then _ else r) in *.
  destruct (r_size r0 <=? r_current r0); [cbn in E; discriminate E|].
  destruct (read_record (r_is r0) (r_data r0) (Z.to_nat (r_recsize r0))) as [[d s]|e|u]; [|cbn in E; discriminate E|cbn in E; discriminate E].
  unfold no_transform in *. apply (f_equal fst) in E. cbn [fst] in E. rewrite <- E. reflexivity.
Qed.

(** ** invariant *)
Definition cinv (F : list Z) (q : cached) (c : Z) (t : bool) : Prop :=
  (exists k, rcur F (q_rd q) k) /\ q_rpos q = c /\ 0 <= c <= f_npts F /\
  0 <= q_csize q <= f_npts F /\ q_csize q < 2 ^ 31 /\ (0 < f_npts F -> 0 < q_csize q) /\
  0 <= q_start q <= f_npts F /\ (0 < f_npts F -> q_start q < f_npts F) /\
  (if t then Z.of_nat (length (q_mask q)) = f_npts F /\ 0 < f_npts F else q_mask q = [] /\ q_init q = false) /\
  (q_init q = true -> Z.of_nat (length (q_cache q)) = q_csize q /\
     exists fl, 0 <= fl <= q_csize q /\ q_start q + fl <= f_npts F /\ marks (q_mask q) (q_start q) (q_start q + fl) /\
       forall j, 0 <= j < fl -> nth (Z.to_nat j) (q_cache q) None = Some (file_record F (q_start q + j))).

Lemma span_val F q p : rinv F (q_rd q) -> las_file F -> 0 <= p <= f_npts F -> span q p = Z.to_nat (Z.min (q_csize q) (f_npts F - p)).
Proof.
  intros (A & _) HF Hp. destruct (fields_nonneg F (proj1 HF)) as (_ & N0 & _). unfold span. rewrite (shows_npts F _ A).
  rewrite Z.mod_small; [reflexivity|]. assert (2 ^ 32 < 2 ^ 64) by reflexivity. lia.
Qed.

Lemma fill_ok F : las_file F -> no_schema_vlr F -> finite_scaling F -> complete F ->
  forall n i c q, rcur F (q_rd q) (c + i) -> 0 <= c -> 0 <= i -> c + i + Z.of_nat n <= f_npts F -> i + Z.of_nat n <= q_csize q ->
  Z.of_nat (length (q_mask q)) = f_npts F -> Z.of_nat (length (q_cache q)) = q_csize q ->
  marks (q_mask q) c (c + i) -> (forall j, 0 <= j < i -> nth (Z.to_nat j) (q_cache q) None = Some (file_record F (c + j))) ->
  exists q', fill no_transform n i q = (q', Ok tt) /\ rcur F (q_rd q') (c + i + Z.of_nat n) /\
    q_csize q' = q_csize q /\ q_start q' = q_start q /\ q_rpos q' = q_rpos q /\ q_init q' = q_init q /\
    length (q_mask q') = length (q_mask q) /\ length (q_cache q') = length (q_cache q) /\
    marks (q_mask q') c (c + i + Z.of_nat n) /\
    (forall j, 0 <= j < i + Z.of_nat n -> nth (Z.to_nat j) (q_cache q') None = Some (file_record F (c + j))).
Proof.
  intros HF HN HS HC. induction n as [|n IH]; intros i c q R Hc Hi Hn Hcs Lm Lc M K; cbn [fill].
  - exists q. rewrite !Z.add_0_r. split; [reflexivity|]. split; [exact R|]. split; [reflexivity|]. split; [reflexivity|]. split; [reflexivity|]. split; [reflexivity|].
    split; [reflexivity|]. split; [reflexivity|]. split; [exact M|]. exact K.
  - assert (Ec : r_current (q_rd q) = c + i) by apply R. rewrite Ec. rewrite vset_ok by lia.
    cbn [q_masked q_rd q_mask q_cache q_csize q_start q_rpos q_init q_with].
    destruct (uncached_ok F (q_rd q) (c + i) HF HN HS HC R ltac:(lia)) as (r1 & E & R1 & D1). rewrite E. cbn [q_masked q_rd q_mask q_cache q_csize q_start q_rpos q_init q_with].
    rewrite vset_ok by lia.
    edestruct (IH (i + 1) c (mkCached r1 (list_set (q_mask q) (Z.to_nat (c + i)) 1) (q_csize q) (q_start q) (q_rpos q) (list_set (q_cache q) (Z.to_nat i) (Some (r_data r1))) (q_init q)))
      as (q' & E' & R' & C1 & C2 & C3 & C4 & C5 & C6 & M' & K'); cbn [q_rd q_mask q_cache q_csize q_start q_rpos q_init]; rewrite ?length_list_set; try lia.
    + replace (c + (i + 1)) with (c + i + 1) by lia. exact R1.
    + intros j Hj. rewrite nth_list_set by lia. destruct (Nat.eqb_spec (Z.to_nat j) (Z.to_nat (c + i))).
      * destruct (Z.leb_spec c j), (Z.ltb_spec j (c + (i + 1))); cbn [andb]; (reflexivity || lia).
      * rewrite (M j Hj). destruct (Z.leb_spec c j), (Z.ltb_spec j (c + (i + 1))), (Z.ltb_spec j (c + i)); cbn [andb]; (reflexivity || lia).
    + intros j Hj. rewrite nth_list_set by lia. destruct (Nat.eqb_spec (Z.to_nat j) (Z.to_nat i)).
      * rewrite D1. do 2 f_equal. lia.
      * apply K. lia.
    + exists q'. split; [exact E'|]. cbn [q_rd q_mask q_cache q_csize q_start q_rpos q_init] in *. rewrite !length_list_set in *.
      replace (c + i + Z.of_nat (S n)) with (c + (i + 1) + Z.of_nat n) by lia. replace (i + Z.of_nat (S n)) with (i + 1 + Z.of_nat n) by lia. auto 12.
Qed.

Lemma signed_small x : 0 <= x < 2 ^ 31 -> to_signed 32 (x mod 2 ^ 32) = x.
Proof.
  intros H. assert (2 ^ 31 < 2 ^ 32) by reflexivity. rewrite (Z.mod_small x) by lia. unfold to_signed. change (2 ^ (32 - 1)) with (2 ^ 31).
  rewrite Z.mod_small by lia. destruct (Z.ltb_spec x (2 ^ 31)); lia.
Qed.

Lemma no_marks m c : (forall i, 0 <= i -> nth (Z.to_nat i) m 0 = 0) -> marks m c c.
Proof. intros H i Hi. rewrite H by exact Hi. destruct (Z.leb_spec c i), (Z.ltb_spec i c); cbn [andb]; (reflexivity || lia). Qed.

Lemma cached_reset_ok F q r c t : las_file F -> cinv F q c t -> rcur F r 0 ->
  exists q', cached_reset_to q r = Ok q' /\ q_rd q' = r /\ cinv F q' (if t then 0 else c) t /\
    (t = true -> q_start q' = 0 /\ q_init q' = false /\ q_cache q' = q_cache q /\ length (q_mask q') = length (q_mask q) /\
       ((forall i, 0 <= i -> nth (Z.to_nat i) (q_mask q) 0 = 0) -> forall i, 0 <= i -> nth (Z.to_nat i) (q_mask q') 0 = 0)).
Proof.
  intros HF (R & Ec & Hc & Hcs & H31 & Hp & Hs & Hs2 & Ht & Hin) R0. unfold cached_reset_to. destruct t.
  - destruct Ht as (Lm & Np). destruct (q_mask q) as [|x m] eqn:Em; [cbn [List.length] in Lm; lia|]. rewrite <- Em in *.
    rewrite (span_val F (q_with q r) (q_start q)); [|apply R0|exact HF|exact Hs]. cbn [q_with q_csize].
    destruct (unmark_ok (Z.to_nat (Z.min (q_csize q) (f_npts F - q_start q))) (q_mask q) (q_start q)) as (m' & E & L & N); [lia|lia|].
    rewrite E. cbn [obind]. eexists. split; [reflexivity|]. split; [reflexivity|]. split.
    + split; [exists 0; exact R0|]. cbn [q_rd q_mask q_csize q_start q_rpos q_cache q_init]. rewrite L.
      split; [reflexivity|]. split; [lia|]. split; [lia|]. split; [lia|]. split; [exact Hp|]. split; [lia|]. split; [lia|]. split; [auto|]. discriminate.
    + intros _. cbn [q_rd q_mask q_csize q_start q_rpos q_cache q_init]. split; [reflexivity|]. split; [reflexivity|]. split; [reflexivity|]. split; [exact L|].
      intros Z0 i Hi. rewrite N by exact Hi. rewrite Z0 by exact Hi. destruct (_ && _); reflexivity.
  - destruct Ht as (Lm & Ni). rewrite Lm. eexists. split; [reflexivity|]. split; [reflexivity|]. split; [|discriminate].
    split; [exists 0; exact R0|]. unfold q_with. cbn [q_rd q_mask q_csize q_start q_rpos q_cache q_init]. rewrite Lm, Ni in *. split; [exact Ec|]. split; [exact Hc|]. split; [exact Hcs|]. split; [exact H31|].
    split; [exact Hp|]. split; [exact Hs|]. split; [exact Hs2|]. split; [auto|]. discriminate.
Qed.

Lemma rinv_of F q c t : cinv F q c t -> rinv F (q_rd q).
Proof. intros ((k & R & _) & _). exact R. Qed.

Lemma reader_seek_ok F r n : las_file F -> no_schema_vlr F -> finite_scaling F -> complete F -> (exists k, rcur F r k) -> 0 <= n < f_npts F ->
  rcur F (mkRd (is_seek (is_clear (r_is r)) (n * get_record_length (r_hdr r) + h_doff (r_hdr r))) (r_hdr r) (r_data r) (r_size r) (n mod 2 ^ 32) (r_recsize r)) n.
Proof.
  intros HF HN HS HC (k & R) Hn. destruct (rcur_step noxml F r k (RSeek n) HF HN HS HC (proj1 Hn) eq_refl R) as (r1 & E & R1 & D1).
  cbn [cur_step rop_run] in *. destruct (Z.ltb_spec n (f_npts F)); [|lia]. cbn [fst snd] in *.
  unfold reader_seek in E. destruct R as ((_ & _ & _ & _ & Sz & _) & _). rewrite Sz in *. destruct (Z.eqb_spec (f_npts F) n); [lia|]. destruct (Z.ltb_spec (f_npts F) n); [lia|].
  apply (f_equal fst) in E. cbn [fst] in E. rewrite E. exact R1.
Qed.

(** CachedReaderImpl::Seek to an existing record *)
Lemma cached_seek_ok F q c t n : las_file F -> no_schema_vlr F -> finite_scaling F -> complete F -> cinv F q c t -> 0 <= n < f_npts F ->
  exists q', cached_seek q n = (q', Ok tt) /\ cinv F q' n t /\ rcur F (q_rd q') n /\ r_data (q_rd q') = r_data (q_rd q) /\
    q_cache q' = q_cache q /\ q_csize q' = q_csize q /\ length (q_mask q') = length (q_mask q) /\
    ((t = true /\ n = 0 /\ q_start q' = 0 /\ q_init q' = false /\ ((forall i, 0 <= i -> nth (Z.to_nat i) (q_mask q) 0 = 0) -> forall i, 0 <= i -> nth (Z.to_nat i) (q_mask q') 0 = 0)) \/
     (q_start q' = q_start q /\ q_init q' = q_init q /\ q_mask q' = q_mask q)).
Proof.
  intros HF HN HS HC I Hn. unfold cached_seek.
  assert (X : exists q1, (if n <? 1 then cached_reset q else Ok q) = Ok q1 /\ (exists c', cinv F q1 c' t) /\ r_data (q_rd q1) = r_data (q_rd q) /\ q_cache q1 = q_cache q /\ q_csize q1 = q_csize q /\
     length (q_mask q1) = length (q_mask q) /\
     ((t = true /\ n = 0 /\ q_start q1 = 0 /\ q_init q1 = false /\ ((forall i, 0 <= i -> nth (Z.to_nat i) (q_mask q) 0 = 0) -> forall i, 0 <= i -> nth (Z.to_nat i) (q_mask q1) 0 = 0)) \/
     (q_start q1 = q_start q /\ q_init q1 = q_init q /\ q_mask q1 = q_mask q))).
  { destruct (Z.ltb_spec n 1) as [L|L].
    - unfold cached_reset. pose proof (rcur_reset F (q_rd q) HF (rinv_of _ _ _ _ I)) as R0.
      destruct (cached_reset_ok F q _ c t HF I R0) as (q1 & E & Er & I1 & T). exists q1. split; [exact E|]. split; [eauto|]. rewrite Er. split; [reflexivity|].
      destruct t.
      + destruct (T eq_refl) as (T1 & T2 & T3 & T4 & T5).
        assert (q_csize q1 = q_csize q).
        { revert E. unfold cached_reset_to. destruct (q_mask q); [intros E; injection E as <-; reflexivity|]. intros E. apply obind_ok in E as (m' & _ & E). injection E as <-. reflexivity. }
        split; [exact T3|]. split; [assumption|]. split; [exact T4|]. left. split; [reflexivity|]. split; [lia|]. auto.
      + clear T. destruct I as (_ & _ & _ & _ & _ & _ & _ & _ & (Lm & Ni) & _). unfold cached_reset_to in E. rewrite Lm in E. injection E as <-. cbn [q_with q_rd q_mask q_csize q_start q_rpos q_cache q_init]. auto 10.
    - exists q. split; [reflexivity|]. split; [eauto|]. auto 10. }
  destruct X as (q1 & -> & (c' & I1) & D & Ca & Cs & Lm & Alt). cbn [q_at q_rd].
  pose proof I1 as ((k & R1) & Ec & Hc & Hcs & H31 & Hp & Hs & Hs2 & Ht & Hin).
  assert (Sz : r_size (q_rd q1) = f_npts F) by (destruct R1 as ((_ & _ & _ & _ & Sz & _) & _); exact Sz). rewrite Sz.
  destruct (Z.eqb_spec (f_npts F) n); [lia|]. destruct (Z.ltb_spec (f_npts F) n); [lia|].
  pose proof (reader_seek_ok F (q_rd q1) n HF HN HS HC (ex_intro _ k R1) Hn) as RS. rewrite Sz in RS.
  eexists. split; [reflexivity|]. unfold q_with, q_at. cbn [q_rd q_mask q_csize q_start q_rpos q_cache q_init r_data].
  split; [|split; [exact RS|auto 10]].
  split; [exists n; exact RS|]. cbn [q_rd q_mask q_csize q_start q_rpos q_cache q_init]. split; [reflexivity|]. split; [lia|]. auto 10.
Qed.

Lemma read_cached_ok F q c0 t c : las_file F -> no_schema_vlr F -> finite_scaling F -> complete F -> cinv F q c0 t -> 0 <= c < f_npts F ->
  exists q', read_cached no_transform q c = (q', Ok tt) /\ cinv F q' c true /\ r_data (q_rd q') = file_record F c.
Proof.
  intros HF HN HS HC I Hc. destruct (fields_nonneg F (proj1 HF)) as (D0 & N0 & L0). unfold read_cached.
  set (q0 := if q_init q then q else _).
  assert (I0 : cinv F q0 c0 true /\ q_init q0 = true /\ q_rd q0 = q_rd q /\ q_start q0 = q_start q).
  { pose proof I as (R & Ec & Hc0 & Hcs & H31 & Hp & Hs & Hs2 & Ht & Hin). unfold q0. destruct (q_init q) eqn:Ei.
    - destruct t; [|destruct Ht; congruence]. auto.
    - rewrite (shows_npts F (r_hdr (q_rd q))) by apply (rinv_of _ _ _ _ I). cbn [q_rd q_start q_init]. split; [|auto].
      split; [exact R|]. cbn [q_rd q_mask q_csize q_start q_rpos q_cache q_init]. split; [exact Ec|]. split; [exact Hc0|]. split; [exact Hcs|]. split; [exact H31|]. split; [exact Hp|].
      split; [exact Hs|]. split; [exact Hs2|]. rewrite !repeat_length. split; [lia|]. intros _. split; [lia|]. exists 0. split; [lia|]. split; [lia|]. split.
      + rewrite Z.add_0_r. apply no_marks. intros i Hi. apply nth_repeat_0.
      + intros j Hj. lia. }
  clearbody q0. destruct I0 as (I0 & Ei & Er & Es). pose proof I0 as ((k & R) & Ec & Hc0 & Hcs & H31 & Hp & Hs & Hs2 & (Lm & Np) & Hin).
  destruct (Hin Ei) as (Lc & fl & Hfl & Hfl2 & M & K). rewrite (vget_ok (q_mask q0) c 0) by lia. rewrite (M c) by lia.
  destruct (record_facts F c HF HC Hc) as (RL & RB).
  destruct ((q_start q0 <=? c) && (c <? q_start q0 + fl)) eqn:B.
  - (* hit *) apply andb_true_iff in B as (B1 & B2). apply Z.leb_le in B1. apply Z.ltb_lt in B2. rewrite <- Es. rewrite signed_small by lia.
    unfold load_cached. cbn [q_at q_cache]. rewrite (vget_ok (q_cache q0) (c - q_start q0) None) by lia. rewrite K by lia.
    replace (q_start q0 + (c - q_start q0)) with c by lia. eexists. split; [reflexivity|]. unfold q_with, q_at. cbn [q_rd]. split; [|reflexivity].
    split; [exists k; apply rcur_data; auto|]. cbn [q_rd q_mask q_csize q_start q_rpos q_cache q_init]. split; [reflexivity|]. split; [lia|]. split; [exact Hcs|].
    split; [exact H31|]. split; [exact Hp|]. split; [exact Hs|]. split; [exact Hs2|]. split; [auto|]. intros _. split; [exact Lc|]. exists fl. auto.
  - (* miss *) unfold cache_data. rewrite !(span_val F q0) by (first [exact (rinv_of _ _ _ _ I0)|exact HF|lia]).
    destruct (unmark_ok (Z.to_nat (Z.min (q_csize q0) (f_npts F - q_start q0))) (q_mask q0) (q_start q0)) as (m & Em & Lm' & Nm); [lia|lia|]. rewrite Em.
    assert (Zm : forall i, 0 <= i -> nth (Z.to_nat i) m 0 = 0).
    { intros i Hi. rewrite Nm by exact Hi. rewrite (M i Hi).
      destruct (Z.leb_spec (q_start q0) i), (Z.ltb_spec i (q_start q0 + Z.of_nat (Z.to_nat (Z.min (q_csize q0) (f_npts F - q_start q0))))), (Z.ltb_spec i (q_start q0 + fl)); cbn [andb]; (reflexivity || lia). }
    set (q1 := mkCached (q_rd q0) m (q_csize q0) c (q_rpos q0) (q_cache q0) (q_init q0)).
    assert (I1 : cinv F q1 c0 true).
    { split; [exists k; exact R|]. unfold q1. cbn [q_rd q_mask q_csize q_start q_rpos q_cache q_init]. rewrite Lm'. split; [exact Ec|]. split; [lia|]. split; [lia|]. split; [lia|].
      split; [exact Hp|]. split; [lia|]. split; [lia|]. split; [auto|]. intros _. split; [exact Lc|]. exists 0. split; [lia|]. split; [lia|]. split; [rewrite Z.add_0_r; now apply no_marks|].
      intros j Hj. lia. }
    assert (X : exists q2, (if r_current (q_rd q1) =? c then (q1, Ok tt) else cached_seek q1 c) = (q2, Ok tt) /\ rcur F (q_rd q2) c /\
       (exists c', cinv F q2 c' true) /\ q_start q2 = c /\ (forall i, 0 <= i -> nth (Z.to_nat i) (q_mask q2) 0 = 0) /\
       Z.of_nat (length (q_cache q2)) = q_csize q2 /\ q_csize q2 = q_csize q0 /\ length (q_mask q2) = length (q_mask q0)).
    { destruct (Z.eqb_spec (r_current (q_rd q1)) c) as [Eq|Nq].
      - exists q1. split; [reflexivity|]. assert (k = c) by (destruct R as (_ & Ek & _); unfold q1 in Eq; cbn [q_rd] in Eq; congruence). subst k.
        split; [exact R|]. split; [exists c0; exact I1|]. split; [reflexivity|]. split; [exact Zm|]. split; [exact Lc|]. split; [reflexivity|exact Lm'].
      - destruct (cached_seek_ok F q1 c0 true c HF HN HS HC I1 Hc) as (q2 & E2 & I2 & R2 & _ & Ca & Cs & Lm2 & Alt). exists q2. split; [exact E2|]. split; [exact R2|]. split; [eauto|].
        unfold q1 in *. cbn [q_rd q_mask q_csize q_start q_rpos q_cache q_init] in *. rewrite Ca, Cs, Lm2.
        destruct Alt as [(_ & C0 & S0 & _ & Zz)|(S1 & _ & M1)].
        + split; [congruence|]. split; [now apply Zz|]. auto.
        + split; [exact S1|]. rewrite M1. auto. }
    destruct X as (q2 & E2 & R2 & (c' & I2) & S2 & Z2 & Lc2 & Cs2 & Lm2). rewrite E2.
    destruct (fill_ok F HF HN HS HC (Z.to_nat (Z.min (q_csize q0) (f_npts F - c))) 0 c (q_at q2 c)) as (q3 & E3 & R3 & G1 & G2 & G3 & G4 & G5 & G6 & M3 & K3);
      cbn [q_at q_rd q_mask q_csize q_start q_rpos q_cache q_init]; rewrite ?Z.add_0_r; try lia; auto.
    { now apply no_marks. }
    rewrite E3. cbn [q_at q_rd q_mask q_csize q_start q_rpos q_cache q_init] in *. rewrite G2, S2, Z.sub_diag. change (to_signed 32 (0 mod 2 ^ 32)) with 0. cbn [Z.ltb Z.compare].
    assert (W0 : Z.of_nat (Z.to_nat (Z.min (q_csize q0) (f_npts F - c))) = Z.min (q_csize q0) (f_npts F - c)) by lia. rewrite W0 in *.
    rewrite (vget_ok (q_mask q3) c 0) by lia. rewrite (M3 c) by lia. destruct (Z.leb_spec c c); [|lia]. destruct (Z.ltb_spec c (c + 0 + Z.min (q_csize q0) (f_npts F - c))); [|lia]. cbn [andb].
    destruct (Z.ltb_spec (Z.of_nat (length (q_cache q3))) 0); [lia|]. unfold load_cached. rewrite (vget_ok (q_cache q3) 0 None) by lia. rewrite K3 by lia. rewrite Z.add_0_r.
    eexists. split; [reflexivity|]. unfold q_with. cbn [q_rd]. split; [|reflexivity].
    split; [eexists; apply rcur_data; [exact R3|exact RL|exact RB]|]. cbn [q_rd q_mask q_csize q_start q_rpos q_cache q_init]. rewrite G1, G2, G3, G5, Lm2, S2, Cs2.
    split; [reflexivity|]. split; [lia|]. split; [exact Hcs|]. split; [exact H31|]. split; [exact Hp|]. split; [lia|]. split; [lia|]. split; [auto|]. intros _. rewrite G6, Lc2, Cs2. split; [reflexivity|].
    exists (Z.min (q_csize q0) (f_npts F - c)). split; [lia|]. split; [lia|]. rewrite Z.add_0_r in M3. split; [exact M3|]. intros j Hj. apply K3. lia.
Qed.

(** ** one call *)
Lemma cached_step_ok xml F q c t o : las_file F -> no_schema_vlr F -> finite_scaling F -> complete F -> cinv F q c t -> seeks_to_end F o ->
  exists q1, crop_run xml q o = (q1, Ok (snd (ccur_step F (c, t, r_data (q_rd q)) o))) /\
    cinv F q1 (fst (fst (fst (ccur_step F (c, t, r_data (q_rd q)) o)))) (snd (fst (fst (ccur_step F (c, t, r_data (q_rd q)) o)))) /\
    r_data (q_rd q1) = snd (fst (ccur_step F (c, t, r_data (q_rd q)) o)).
Proof.
  intros HF HN HS HC I Ho. destruct (fields_nonneg F (proj1 HF)) as (D0 & N0 & L0). pose proof I as ((k & R) & Ec & Hc & Hcs & H31 & Hp & Hs & Hs2 & Ht & Hin).
  assert (Sz : r_size (q_rd q) = f_npts F) by (destruct R as ((_ & _ & _ & _ & Sz & _) & _); exact Sz).
  destruct o as [|n|n|]; cbn [ccur_step crop_run seeks_to_end] in *.
  - unfold creader_next, cached_next, no_filter. rewrite Ec, Sz. destruct (Z.eqb_spec c (f_npts F)) as [Eq|Nq].
    + exists q. cbn [fst snd]. auto.
    + unfold read_step. rewrite Ec, (Z.mod_small c) by lia.
      destruct (read_cached_ok F q c t c HF HN HS HC I ltac:(lia)) as (q1 & E & I1 & D1). rewrite E. cbn [fst snd ans of_bool].
      exists (q_at q1 (q_rpos q1 + 1)). split; [reflexivity|]. split; [|exact D1].
      destruct I1 as (R1 & Ec1 & Hc1 & X). split; [exact R1|]. cbn [q_at q_rd q_mask q_csize q_start q_rpos q_cache q_init] in *. split; [lia|]. split; [lia|]. exact X.
  - unfold creader_at, cached_at. rewrite (shows_npts F (r_hdr (q_rd q))) by apply (rinv_of _ _ _ _ I). rewrite Sz.
    destruct (Z.leb_spec (f_npts F) n), (Z.ltb_spec n (f_npts F)); try lia.
    + exists q. cbn [fst snd]. auto.
    + rewrite (Z.mod_small n) by lia. destruct (read_cached_ok F q c t n HF HN HS HC I ltac:(lia)) as (q1 & E & I1 & D1). rewrite E. cbn [fst snd ans of_bool].
      exists (q_at q1 n). split; [reflexivity|]. split; [|exact D1].
      destruct I1 as (R1 & Ec1 & Hc1 & X). split; [exact R1|]. cbn [q_at q_rd q_mask q_csize q_start q_rpos q_cache q_init] in *. split; [reflexivity|]. split; [lia|]. exact X.
  - unfold creader_seek. destruct (Z.ltb_spec n (f_npts F)) as [L|L].
    + destruct (cached_seek_ok F q c t n HF HN HS HC I ltac:(lia)) as (q1 & E & I1 & _ & D1 & _). rewrite E. cbn [fst snd ans of_bool]. exists q1. auto.
    + assert (n = f_npts F) by lia. subst n. unfold cached_seek.
      assert (X : exists q1 c', (if f_npts F <? 1 then cached_reset q else Ok q) = Ok q1 /\ cinv F q1 c' t /\ r_data (q_rd q1) = r_data (q_rd q)).
      { destruct (Z.ltb_spec (f_npts F) 1) as [L1|L1]; [|exists q, c; auto].
        unfold cached_reset. pose proof (rcur_reset F (q_rd q) HF (rinv_of _ _ _ _ I)) as R0.
        destruct (cached_reset_ok F q _ c t HF I R0) as (q1 & E & Er & I1 & _). exists q1. eexists. split; [exact E|]. split; [exact I1|]. rewrite Er. reflexivity. }
      destruct X as (q1 & c' & E & I1 & D1). rewrite E. cbn [q_at q_rd].
      assert (Sz1 : r_size (q_rd q1) = f_npts F) by (destruct I1 as ((k1 & (_ & _ & _ & _ & S1 & _) & _) & _); exact S1).
      rewrite Sz1, Z.eqb_refl. cbn [fst snd ans of_bool]. exists (q_at q1 (f_npts F)). split; [reflexivity|]. split; [|exact D1].
      destruct I1 as (R1 & Ec1 & Hc1 & X). split; [exact R1|]. cbn [q_at q_rd q_mask q_csize q_start q_rpos q_cache q_init] in *. split; [reflexivity|]. split; [lia|]. exact X.
  - unfold cached_read_header. destruct (reset_ok xml F (q_rd q) HF HN HS (rinv_of _ _ _ _ I)) as (r1 & E & I1 & C1 & D1 & _). unfold reader_reset in E. rewrite E. cbn [obind].
    assert (R0 : rcur F r1 0) by (split; [exact I1|]; split; [exact C1|]; split; lia).
    destruct (cached_reset_ok F q r1 c t HF I R0) as (q1 & E1 & Er & I2 & _). rewrite E1. cbn [obind]. cbn [fst snd].
    rewrite (shows_npts F (r_hdr r1)) by apply I1. pose proof I2 as (R2 & Ec2 & Hc2 & Hcs2 & X).
    assert (Q : (if q_csize q1 =? 0 then f_npts F else q_csize q1) = q_csize q1).
    { destruct (Z.eqb_spec (q_csize q1) 0) as [Z0|Z0]; [|reflexivity]. destruct X as (_ & Hp2 & _). destruct (Z.eq_dec (f_npts F) 0); [lia|]. specialize (Hp2 ltac:(lia)). lia. }
    rewrite Q. destruct (Z.ltb_spec (f_npts F) (q_csize q1)); [lia|]. eexists. split; [reflexivity|]. split; [|cbn [q_rd]; rewrite Er; exact D1].
    split; [exact R2|]. cbn [q_rd q_mask q_csize q_start q_rpos q_cache q_init]. split; [exact Ec2|]. split; [exact Hc2|]. split; [exact Hcs2|]. exact X.
Qed.

Lemma cached_run_ok xml F ops : forall q c t, las_file F -> no_schema_vlr F -> finite_scaling F -> complete F -> cinv F q c t -> Forall (seeks_to_end F) ops ->
  exists q1, crops_run xml q ops = Ok (q1, ccur_run F (c, t, r_data (q_rd q)) ops).
Proof.
  induction ops as [|o ops IH]; intros q c t HF HN HS HC I Ho; cbn [crops_run ccur_run]; [eauto|].
  inversion Ho; subst. destruct (cached_step_ok xml F q c t o HF HN HS HC I ltac:(assumption)) as (q1 & -> & I1 & D1). cbn [obind].
  destruct (ccur_step F (c, t, r_data (q_rd q)) o) as [[[c1 t1] p1] a]. cbn [fst snd] in *.
  destruct (IH q1 c1 t1 HF HN HS HC I1 ltac:(assumption)) as (q2 & ->). cbn [obind]. rewrite D1. eauto.
Qed.

Lemma cached_open_ok xml doy year F size : las_file F -> no_schema_vlr F -> 0 <= size -> kept F size < 2 ^ 31 ->
  exists q, cached_open xml doy year size F = Ok q /\ cinv F q 0 false /\ r_data (q_rd q) = repeat 0 (Z.to_nat (f_reclen F)).
Proof.
  intros HF HN Hs H31. destruct (fields_nonneg F (proj1 HF)) as (D0 & N0 & L0). destruct (open_ok xml doy year F HF HN) as (r & E & Hi & Hc & Hd & _).
  unfold reader_open in E. unfold cached_open. destruct (header_new doy year) as [h|e|u]; [|discriminate E|discriminate E]. cbn [obind] in *.
  unfold cached_read_header. cbn [q_rd r_is r_hdr r_data]. rewrite E. cbn [obind]. unfold cached_reset_to. cbn [q_mask obind q_with q_rd q_csize q_start q_rpos q_cache q_init].
  rewrite (shows_npts F (r_hdr r)) by apply Hi. eexists. split; [reflexivity|]. split; [|exact Hd].
  assert (W : (if f_npts F <? (if size =? 0 then f_npts F else size) then f_npts F else if size =? 0 then f_npts F else size) = kept F size).
  { unfold kept. destruct (Z.eqb_spec size 0); [destruct (Z.ltb_spec (f_npts F) (f_npts F)); lia|]. destruct (Z.ltb_spec (f_npts F) size); lia. }
  rewrite W. split; [exists 0; split; [exact Hi|split; [exact Hc|split; lia]]|]. cbn [q_rd q_mask q_csize q_start q_rpos q_cache q_init].
  assert (0 <= kept F size <= f_npts F /\ (0 < f_npts F -> 0 < kept F size)) by (unfold kept; destruct (Z.eqb_spec size 0); lia).
  split; [reflexivity|]. split; [lia|]. split; [lia|]. split; [lia|]. split; [lia|]. split; [lia|]. split; [lia|]. split; [auto|]. discriminate.
Qed.

(** C30: the cached reader.

    Vocabulary.  Cached_Api.v: [crops_run] runs a history on the modelled cached
    reader, [ccur_run] is the cursor machine describing it, [kept] the number of
    records held.  The plain reader is [rops_run] (Reader_Api.v), described by
    [cur_run] (Reader_Spec.v). *)
From Coq Require Import ZArith List Bool Lia String.
Import ListNotations.
From Verif Require Import Outcome Bytes Float64 CStr Vlr_Model Schema_Model Header_Model Point_Model Stream_Model
  IO_Spec Reader_Model Reader_Spec Reader_Api Reader_Hist IO_Samples Prop_Reader Cached_Model Cached_Api Cached_Proofs.
Local Open Scope Z_scope.
Local Notation length := List.length (only parsing).

(** Whatever the cache size, what the cached reader returns is independent of it,
    as long as the number of records held fits an int32_t. *)
Theorem C30_exact : forall xml doy year F size ops, a_file F -> 0 <= size -> kept F size < 2 ^ 31 -> Forall (seeks_to_end F) ops ->
  exists q q1, cached_open xml doy year size F = Ok q /\
    crops_run xml q ops = Ok (q1, ccur_run F (0, false, repeat 0 (Z.to_nat (f_reclen F))) ops).
Proof.
  intros xml doy year F size ops (HF & HN & HS & HC) Hs Hk Ho. destruct (cached_open_ok xml doy year F size HF HN Hs Hk) as (q & E & I & D).
  destruct (cached_run_ok xml F ops q 0 false HF HN HS HC I Ho) as (q1 & E1). exists q, q1. split; [exact E|]. now rewrite E1, D.
Qed.
Print Assumptions C30_exact.

(** On sequential histories (ReadNextPoint, Seek to existing records, Reset, but
    no Reset between a Seek and the first read) plain and cached reader, of any
    cache size, show the same results and points. *)
Lemma same_touched F ops : forall c p, 0 <= c <= f_npts F -> Forall (seeks_inside F) ops -> ccur_run F (c, true, p) ops = cur_run F (c, p) ops.
Proof.
  induction ops as [|o ops IH]; intros c p Hc Ho; [reflexivity|]. inversion Ho; subst. cbn [ccur_run cur_run].
  destruct o as [|n|n|]; cbn [ccur_step cur_step seeks_inside] in *; try contradiction.
  - destruct (Z.eqb_spec c (f_npts F)), (Z.ltb_spec c (f_npts F)); try lia; cbn [snd]; f_equal; apply IH; (assumption || lia).
  - destruct (Z.ltb_spec n (f_npts F)); [|lia]. cbn [snd]. f_equal. apply IH; (assumption || lia).
  - cbn [snd]. f_equal. apply IH; (assumption || lia).
Qed.
Lemma same_empty F ops : forall t p, f_npts F = 0 -> Forall (seeks_inside F) ops -> ccur_run F (0, t, p) ops = cur_run F (0, p) ops.
Proof.
  induction ops as [|o ops IH]; intros t p Hn Ho; [reflexivity|]. inversion Ho; subst. cbn [ccur_run cur_run].
  destruct o as [|n|n|]; cbn [ccur_step cur_step seeks_inside] in *; try contradiction.
  - rewrite Hn. cbn [Z.eqb Z.ltb Z.compare snd]. f_equal. now apply IH.
  - lia.
  - cbn [snd]. f_equal. destruct t; now apply IH.
Qed.
Lemma same_sought F ops : forall c p, 0 <= c < f_npts F -> Forall (seeks_inside F) ops -> read_before_reset ops -> ccur_run F (c, false, p) ops = cur_run F (c, p) ops.
Proof.
  induction ops as [|o ops IH]; intros c p Hc Ho Hr; [reflexivity|]. inversion Ho; subst. cbn [ccur_run cur_run].
  destruct o as [|n|n|]; cbn [ccur_step cur_step seeks_inside read_before_reset] in *; try contradiction.
  - destruct (Z.eqb_spec c (f_npts F)), (Z.ltb_spec c (f_npts F)); try lia. cbn [snd]. f_equal. apply same_touched; (assumption || lia).
  - destruct (Z.ltb_spec n (f_npts F)); [|lia]. cbn [snd]. f_equal. apply IH; (assumption || lia).
Qed.
Lemma same_start F ops : forall p, 0 < f_npts F -> Forall (seeks_inside F) ops -> no_early_seek_reset ops -> ccur_run F (0, false, p) ops = cur_run F (0, p) ops.
Proof.
  induction ops as [|o ops IH]; intros p Hc Ho Hr; [reflexivity|]. inversion Ho; subst. cbn [ccur_run cur_run].
  destruct o as [|n|n|]; cbn [ccur_step cur_step seeks_inside no_early_seek_reset] in *; try contradiction.
  - destruct (Z.eqb_spec 0 (f_npts F)), (Z.ltb_spec 0 (f_npts F)); try lia. cbn [snd]. f_equal. apply same_touched; (assumption || lia).
  - destruct (Z.ltb_spec n (f_npts F)); [|lia]. cbn [snd]. f_equal. apply same_sought; (assumption || lia).
  - cbn [snd]. f_equal. now apply IH.
Qed.
Theorem C30_equivalent_partial : forall xml doy year F size ops, a_file F -> 0 <= size -> kept F size < 2 ^ 31 ->
  Forall (seeks_inside F) ops -> no_early_seek_reset ops ->
  exists q q1 r r1 obs, cached_open xml doy year size F = Ok q /\ crops_run xml q ops = Ok (q1, obs) /\
    reader_open xml doy year F = Ok r /\ rops_run xml r ops = Ok (r1, obs).
Proof.
  intros xml doy year F size ops HF Hs Hk Ho Hr.
  assert (H1 : Forall (seeks_to_end F) ops) by (eapply Forall_impl; [|exact Ho]; intros [| | |]; cbn [seeks_inside seeks_to_end]; lia).
  assert (H2 : Forall rop_ok ops) by (eapply Forall_impl; [|exact Ho]; intros [| | |]; cbn [seeks_inside rop_ok]; lia).
  assert (H3 : Forall (fun o => is_at o = false) ops) by (eapply Forall_impl; [|exact Ho]; intros [| | |]; cbn [seeks_inside is_at]; (reflexivity || contradiction)).
  destruct (C30_exact xml doy year F size ops HF Hs Hk H1) as (q & q1 & E1 & E2).
  destruct (C24_sequential xml doy year F ops HF H2 H3) as (r & r1 & E3 & E4).
  destruct (fields_nonneg F (proj1 (proj1 HF))) as (_ & N0 & _).
  assert (S : ccur_run F (0, false, repeat 0 (Z.to_nat (f_reclen F))) ops = cur_run F (0, repeat 0 (Z.to_nat (f_reclen F))) ops).
  { destruct (Z.eq_dec (f_npts F) 0); [now apply same_empty|apply same_start; (assumption || lia)]. }
  rewrite S in E2. exists q, q1, r, r1. eexists. eauto.
Qed.
Print Assumptions C30_equivalent_partial.

Definition seq_history : list rop := [RReset; RSeek 1; RNext; RNext; RReset; RNext; RNext; RNext; RNext; RSeek 0; RNext].
Example C30_equivalent_instance : a_file three /\ kept three 2 < 2 ^ 31 /\ Forall (seeks_inside three) seq_history /\ no_early_seek_reset seq_history /\
  map (fun x => nth 0 (snd x) 0) (ccur_run three (0, false, repeat 0 20) seq_history) = [0; 0; 8; 9; 9; 7; 8; 9; 9; 9; 7].
Proof.
  split; [apply three_ok|]. split; [vm_compute; reflexivity|]. split; [|split; [exact I|vm_compute; reflexivity]].
  repeat apply Forall_cons; try apply Forall_nil; cbn [seeks_inside]; try exact I; split; (discriminate || reflexivity).
Qed.

(** ** where they differ *)
Lemma ok_hist ops : forallb (fun o => match o with RSeek n => (0 <=? n) && (n <=? 3) | RAt n => 0 <=? n | _ => true end) ops = true -> Forall (seeks_to_end three) ops.
Proof.
  apply forallb_Forall. intros [|n|n|]; cbn [seeks_to_end]; rewrite ?andb_true_iff, ?Z.leb_le; intros; try exact I; try lia.
  replace (f_npts three) with 3 by (vm_compute; reflexivity). lia.
Qed.
Lemma cached_three xml size ops : 0 <= size -> forallb (fun o => match o with RSeek n => (0 <=? n) && (n <=? 3) | RAt n => 0 <=? n | _ => true end) ops = true ->
  exists q q1, cached_open xml 1 2012 size three = Ok q /\ crops_run xml q ops = Ok (q1, ccur_run three (0, false, repeat 0 20) ops).
Proof.
  intros Hs Ho. apply (C30_exact xml 1 2012 three size ops (proj1 three_ok) Hs); [|now apply ok_hist].
  replace (kept three size) with (if size =? 0 then 3 else Z.min size 3) by reflexivity. destruct (size =? 0); lia.
Qed.
(** ReadPointAt(n), then ReadNextPoint: the same record again (plain reader: the
    one after it). *)
Theorem C30_read_at_then_next_refuted : exists F ops, forall xml size, 0 <= size -> a_file F /\ Forall rop_ok ops /\
  exists q q1 r r1 a b, cached_open xml 1 2012 size F = Ok q /\ crops_run xml q ops = Ok (q1, [(ATrue, a); (ATrue, a)]) /\
    reader_open xml 1 2012 F = Ok r /\ rops_run xml r ops = Ok (r1, [(ATrue, a); (ATrue, b)]) /\ a <> b.
Proof.
  exists three, [RAt 1; RNext]. intros xml size Hs. split; [apply three_ok|].
  assert (Ho : Forall rop_ok [RAt 1; RNext]) by (repeat apply Forall_cons; try apply Forall_nil; cbn [rop_ok]; (exact I || discriminate)). split; [exact Ho|].
  destruct (cached_three xml size [RAt 1; RNext] Hs eq_refl) as (q & q1 & E1 & E2).
  destruct (C26_interleaving_exact xml 1 2012 three _ (proj1 three_ok) (proj1 (proj2 three_ok)) Ho) as (r & r1 & E3 & E4).
  exists q, q1, r, r1, (rec_of 8), (rec_of 7). split; [exact E1|]. split; [rewrite E2; vm_compute; reflexivity|]. split; [exact E3|]. split; [rewrite E4; vm_compute; reflexivity|]. discriminate.
Qed.
Print Assumptions C30_read_at_then_next_refuted.
(** A Seek to the number of records fails but moves the read position. *)
Theorem C30_seek_end_refuted : exists F ops, forall xml size, 0 <= size -> a_file F /\ Forall rop_ok ops /\
  exists q q1 r r1 a b, cached_open xml 1 2012 size F = Ok q /\ crops_run xml q ops = Ok (q1, [(ATrue, a); (AFalse, a); (AFalse, a)]) /\
    reader_open xml 1 2012 F = Ok r /\ rops_run xml r ops = Ok (r1, [(ATrue, a); (AFalse, a); (ATrue, b)]) /\ a <> b.
Proof.
  exists three, [RNext; RSeek 3; RNext]. intros xml size Hs. split; [apply three_ok|].
  assert (Ho : Forall rop_ok [RNext; RSeek 3; RNext]) by (repeat apply Forall_cons; try apply Forall_nil; cbn [rop_ok]; (exact I || discriminate)). split; [exact Ho|].
  destruct (cached_three xml size [RNext; RSeek 3; RNext] Hs eq_refl) as (q & q1 & E1 & E2).
  destruct (C24_sequential xml 1 2012 three _ (proj1 three_ok) Ho ltac:(repeat constructor)) as (r & r1 & E3 & E4).
  exists q, q1, r, r1, (rec_of 7), (rec_of 8). split; [exact E1|]. split; [rewrite E2; vm_compute; reflexivity|]. split; [exact E3|]. split; [rewrite E4; vm_compute; reflexivity|]. discriminate.
Qed.
Print Assumptions C30_seek_end_refuted.
(** Reset after a Seek is ignored as long as nothing has been read. *)
Theorem C30_seek_reset_refuted : exists F ops, forall xml size, 0 <= size -> a_file F /\ Forall rop_ok ops /\
  exists q q1 r r1 p a b, cached_open xml 1 2012 size F = Ok q /\ crops_run xml q ops = Ok (q1, [(ATrue, p); (ATrue, p); (ATrue, a)]) /\
    reader_open xml 1 2012 F = Ok r /\ rops_run xml r ops = Ok (r1, [(ATrue, p); (ATrue, p); (ATrue, b)]) /\ a <> b.
Proof.
  exists three, [RSeek 2; RReset; RNext]. intros xml size Hs. split; [apply three_ok|].
  assert (Ho : Forall rop_ok [RSeek 2; RReset; RNext]) by (repeat apply Forall_cons; try apply Forall_nil; cbn [rop_ok]; (exact I || discriminate)). split; [exact Ho|].
  destruct (cached_three xml size [RSeek 2; RReset; RNext] Hs eq_refl) as (q & q1 & E1 & E2).
  destruct (C24_sequential xml 1 2012 three _ (proj1 three_ok) Ho ltac:(repeat constructor)) as (r & r1 & E3 & E4).
  exists q, q1, r, r1, (rec_of 0), (rec_of 9), (rec_of 7). split; [exact E1|]. split; [rewrite E2; vm_compute; reflexivity|]. split; [exact E3|]. split; [rewrite E4; vm_compute; reflexivity|]. discriminate.
Qed.
Print Assumptions C30_seek_reset_refuted.

(** A Seek past the number of records fails, and the next ReadNextPoint indexes
    the mask vector outside its bounds. *)
Definition observe {A} (o : outcome (A * list (rans * list Z))) : outcome (list (rans * list Z)) :=
  match o with Ok (_, l) => Ok l | Throw e => Throw e | UB u => UB u end.
Theorem C30_seek_past_end_refuted : exists F ops, a_file F /\ Forall rop_ok ops /\
  exists q, cached_open noxml 1 2012 2 F = Ok q /\ crops_run noxml q ops = UB UBOutOfBounds /\
  exists r r1 obs, reader_open noxml 1 2012 F = Ok r /\ rops_run noxml r ops = Ok (r1, obs).
Proof.
  exists three, [RSeek 4; RNext]. split; [apply three_ok|].
  assert (Ho : Forall rop_ok [RSeek 4; RNext]) by (repeat apply Forall_cons; try apply Forall_nil; cbn [rop_ok]; (exact I || discriminate)). split; [exact Ho|].
  destruct (cached_three noxml 2 [] ltac:(lia) eq_refl) as (q & _ & E1 & _). exists q. split; [exact E1|]. split.
  - assert (X : match cached_open noxml 1 2012 2 three with Ok q => observe (crops_run noxml q [RSeek 4; RNext]) | _ => UB UBNull end = UB UBOutOfBounds) by (vm_compute; reflexivity).
    rewrite E1 in X. destruct (crops_run noxml q [RSeek 4; RNext]) as [[? ?]|?|?]; cbn [observe] in X; congruence.
  - destruct (C24_sequential noxml 1 2012 three _ (proj1 three_ok) Ho ltac:(repeat constructor)) as (r & r1 & E3 & E4). eauto.
Qed.
Print Assumptions C30_seek_past_end_refuted.

(** The cached reader that reads everything, with a filter. *)
Fixpoint cached_read_all {FS} (flt : option (FS -> point -> bool * FS)) (fuel : nat) (q : cached) (fs : FS) : outcome (list (list Z) * bool) :=
  match fuel with
  | O => Ok ([], false)
  | S k =>
      match creader_next flt no_transform q fs with
      | ((q1, fs1), Ok true) => let! (l, b) := cached_read_all flt k q1 fs1 in Ok (r_data (q_rd q1) :: l, b)
      | ((q1, fs1), Ok false) => Ok ([], true)
      | (_, Throw e) => Throw e
      | (_, UB u) => UB u
      end
  end.
Definition first_is (b : Z) (p : point) : bool := nth 0 (p_data p) 0 =? b.
(** With a filter.  Records 7, 8, 9.  A filter that accepts only 9: nothing is
    returned, whatever the cache size.  A filter that rejects the last record
    makes the reader index its mask outside the bounds. *)
Definition accepted (F : list Z) (size : Z) (keep : point -> bool) : outcome (list (list Z) * bool) :=
  match cached_open noxml 1 2012 size F with Ok q => cached_read_all (stateless keep) 10 q tt | Throw e => Throw e | UB u => UB u end.
Theorem C30_filtered_refuted : exists F, a_file F /\ exact_end F /\
  accepted F 0 (first_is 9) = Ok ([], true) /\ accepted F 1 (first_is 9) = Ok ([], true) /\
  filter (fun d => first_is 9 (mkPoint d (sample_header 2))) (records_from F 0) = [rec_of 9] /\
  accepted F 0 (first_is 8) = UB UBOutOfBounds /\ accepted F 1 (first_is 8) = UB UBOutOfBounds.
Proof.
  exists three. split; [apply three_ok|]. split; [apply three_ok|]. vm_compute. repeat (split; [reflexivity|]). reflexivity.
Qed.
Print Assumptions C30_filtered_refuted.

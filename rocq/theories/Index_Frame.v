(** The VLRs of an index do not depend on the VLRs before it, and a query on them
    not on VLRs after it, nor on what the reader changes in a VLR. *)
From Coq Require Import ZArith List Bool Lia String.
From Coq Require Import ZifyBool ZifyNat.
Import ListNotations.
From Verif Require Import Outcome Bytes CStr Float64 Vlr_Model Bounds_Model IO_Spec Reader_Vlrs Index_Cell Index_Temp Index_Scan Index_Out Index_Query.
Local Open Scope Z_scope.
Local Notation length := List.length (only parsing).

(** ** VLRs before *)
Definition addv (b : list vlr) (o : out) : out := mkOut (b ++ o_vlrs o) (o_cell o) (o_drs o) (o_pts o) (o_first o) (o_some o).
Lemma init_frame b o x y : init_vlr_data (addv b o) x y = omap (addv b) (init_vlr_data o x y).
Proof.
  unfold init_vlr_data. cbn [addv o_cell o_vlrs o_drs o_pts o_first o_some].
  repeat (match goal with |- obind ?m _ = omap _ (obind ?m _) => destruct m; cbn [obind omap]; try reflexivity end).
Qed.
Lemma continuation_frame b fuel : forall tmp w u d vlrs, continuation fuel tmp w u d (b ++ vlrs) = omap (fun p => (fst p, b ++ snd p)) (continuation fuel tmp w u d vlrs).
Proof.
  induction fuel as [|fuel IH]; intros tmp w u d vlrs; cbn [continuation]; destruct (u <=? 0); try reflexivity.
  match goal with |- obind ?m _ = _ => destruct m as [d1|e|u1]; cbn [obind omap]; try reflexivity end. rewrite <- app_assoc. apply IH.
Qed.
Lemma output_frame b o x y c : output_cell (addv b o) x y c = omap (addv b) (output_cell o x y c).
Proof.
  unfold output_cell. cbn [addv o_first].
  assert (E : (if o_first o then init_vlr_data (addv b o) x y else Ok (addv b o)) = omap (addv b) (if o_first o then init_vlr_data o x y else Ok o)).
  { destruct (o_first o); [apply init_frame|reflexivity]. }
  rewrite E. clear E. destruct (if o_first o then init_vlr_data o x y else Ok o) as [o1|e|u]; cbn [omap obind]; try reflexivity.
  destruct (k_num c =? 0); [reflexivity|]. cbn [addv o_vlrs o_cell o_drs o_pts o_first o_some].
  set (tmp := cell_bytes x y c).
  set (M := if o_some o1 && _ then _ else Ok (mkOut (b ++ o_vlrs o1) _ _ _ _ _)).
  set (N := if o_some o1 && _ then _ else Ok (mkOut (o_vlrs o1) _ _ _ _ _)).
  assert (E : M = omap (addv b) N).
  { unfold M, N. destruct (o_some o1 && _); [|reflexivity].
    rewrite <- app_assoc.
    change (mkOut (b ++ o_vlrs o1 ++ ?x) ?d ?e ?f ?g ?h) with (addv b (mkOut (o_vlrs o1 ++ x) d e f g h)).
    rewrite init_frame. cbv zeta. match goal with |- context [omap (addv b) ?m] => destruct m as [o2|e|u]; reflexivity end. }
  rewrite E. clearbody N. clear M E. destruct N as [o2|e|u]; cbn [omap obind]; try reflexivity. cbn [addv o_vlrs o_cell o_drs o_pts o_first o_some].
  destruct (_ <=? vlr_max).
  - repeat (match goal with |- obind ?m _ = omap _ (obind ?m _) => destruct m; cbn [obind omap]; try reflexivity end).
  - repeat (match goal with |- obind (put ?a ?p ?q) _ = omap _ (obind (put ?a ?p ?q) _) => destruct (put a p q); cbn [obind omap]; try reflexivity end).
    rewrite <- app_assoc, continuation_frame. destruct (continuation _ _ _ _ _ _) as [[d1 v1]|e|u]; reflexivity.
Qed.
Lemma outputs_frame b cells : forall o, output_cells (addv b o) cells = omap (addv b) (output_cells o cells).
Proof.
  induction cells as [|[[x y] c] cells IH]; intros o; cbn [output_cells]; [reflexivity|]. rewrite output_frame.
  destruct (output_cell o x y c) as [o1|e|u]; cbn [omap obind]; try reflexivity. apply IH.
Qed.
Lemma finalize_frame b o : finalize (addv b o) = omap (fun l => b ++ l) (finalize o).
Proof.
  unfold finalize. cbn [addv o_some o_drs o_cell o_vlrs]. destruct (o_some o); [|reflexivity].
  match goal with |- obind ?m _ = _ => destruct m as [[d drs]|e|u]; cbn [obind omap]; try reflexivity end. now rewrite <- app_assoc.
Qed.
Lemma write_frame b h cells : write_index b h cells = omap (fun l => b ++ l) (write_index [] h cells).
Proof.
  unfold write_index. change (initiate b h) with (addv b (initiate [] h)). rewrite outputs_frame.
  destruct (output_cells (initiate [] h) cells) as [o|e|u]; cbn [omap obind]; try reflexivity. apply finalize_frame.
Qed.

(** ** The same to a query *)
Definition vsame (v w : vlr) : Prop := vlr_get_user false v = vlr_get_user false w /\ v_id v = v_id w /\ v_size v = v_size w /\ v_data v = v_data w.
Lemma norm_same v : vsame (vlr_norm v) v.
Proof.
  pose proof (vlr_norm_view v) as E. unfold vsame. split; [|split; [reflexivity|split; reflexivity]].
  unfold vlr_view in E. unfold vlr_get_user in *. cbn [andb] in *. unfold vlr_norm in *. cbn [v_user v_desc v_id v_reserved v_size v_data] in *. injection E. congruence.
Qed.
Lemma nth_norm l i : nth_error (map vlr_norm l) i = option_map vlr_norm (nth_error l i).
Proof. apply nth_error_map. Qed.
Lemma gather_norm fuel : forall l drs i comp unread, gather fuel (map vlr_norm l) drs i comp unread = gather fuel l drs i comp unread.
Proof.
  induction fuel as [|fuel IH]; intros l drs i comp unread; cbn [gather]; [reflexivity|]. destruct (unread <=? 0); [reflexivity|].
  cbn zeta. rewrite nth_norm. destruct (nth_error l _) as [v|]; [|reflexivity]. cbn [option_map]. change (v_data (vlr_norm v)) with (v_data v). change (v_size (vlr_norm v)) with (v_size v).
  destruct (_ <? _); [reflexivity|]. destruct (_ <? _); [reflexivity|]. apply IH.
Qed.
Lemma one_vlr_norm pts ix q l i v s : filter_one_vlr pts ix q (map vlr_norm l) i (vlr_norm v) s = filter_one_vlr pts ix q l i v s.
Proof.
  unfold filter_one_vlr. change (v_data (vlr_norm v)) with (v_data v). change (v_size (vlr_norm v)) with (v_size v). rewrite map_length.
  assert (G : forall drs comp u, gather (S (length l)) (map vlr_norm l) drs i comp u = gather (S (length l)) l drs i comp u) by (intros; apply gather_norm).
  destruct (v_size v =? 0); [reflexivity|]. destruct (_ <? _); [reflexivity|]. cbn zeta.
  repeat match goal with |- match ?m with Some _ => _ | None => _ end = _ => destruct m; [|reflexivity] end.
  rewrite G. reflexivity.
Qed.
Lemma loop_norm pts fuel : forall l ix q i s, filter_loop fuel pts (map vlr_norm l) ix q i s = filter_loop fuel pts l ix q i s.
Proof.
  induction fuel as [|fuel IH]; intros l ix q i s; cbn [filter_loop]; rewrite map_length; [reflexivity|]. destruct (_ <=? i); [reflexivity|].
  rewrite nth_norm. destruct (nth_error l _) as [v|]; [|reflexivity]. cbn [option_map].
  destruct (norm_same v) as (E1 & E2 & _). rewrite E1, E2. change (load_index_vlr ix (vlr_norm v)) with (load_index_vlr ix v).
  destruct (zlist_eqb _ _); [|apply IH]. destruct (v_id v =? 42).
  - destruct (load_index_vlr ix v) as [[ix1 ok]|e|u]; cbn [obind]; try reflexivity. destruct (negb ok); [reflexivity|].
    destruct (set_cell_bounds ix1 q) as [q1|e|u]; cbn [obind]; try reflexivity. destruct (bounds_intersects _ _) as [m|e|u]; cbn [obind]; try reflexivity.
    destruct (negb m); [reflexivity|]. destruct (match fs_it s with Some _ => _ | None => _ end); [reflexivity|]. apply IH.
  - destruct (v_id v =? ih_data (ix_h ix)); [|apply IH]. rewrite one_vlr_norm.
    destruct (filter_one_vlr pts ix q l i v s) as [[[[j s1] ok] dn]|e|u]; cbn [obind]; try reflexivity. destruct (negb ok); [reflexivity|].
    destruct (fs_it s1); [|apply IH]. cbn zeta. destruct (full _); [reflexivity|]. apply IH.
Qed.
Lemma filter_norm pts l ix q cur it : index_filter pts (map vlr_norm l) ix q cur it = index_filter pts l ix q cur it.
Proof. unfold index_filter. rewrite map_length, loop_norm. reflexivity. Qed.

(** ** VLRs after *)
Lemma gather_more fuel : forall l tail drs i comp unread k r, gather fuel l drs i comp unread = Ok (k, r) -> 0 <= i ->
  forall fuel', (fuel <= fuel')%nat -> gather fuel' (l ++ tail) drs i comp unread = Ok (k, r).
Proof.
  induction fuel as [|fuel IH]; intros l tail drs i comp unread k r E Hi fuel' Hf; cbn [gather] in E.
  - destruct fuel'; cbn [gather]; destruct (unread <=? 0); try discriminate; exact E.
  - destruct fuel' as [|fuel']; [lia|]. cbn [gather]. destruct (unread <=? 0); [exact E|]. cbn zeta in *.
    destruct (nth_error l (Z.to_nat (i + 1))) as [v|] eqn:EN; [|discriminate]. rewrite nth_error_app1 by (apply nth_error_Some; congruence). rewrite EN.
    destruct (_ <? _); [exact E|]. destruct (_ <? _); [discriminate|]. apply IH with (1 := E); lia.
Qed.
Lemma one_vlr_more pts ix q l tail i v s k : 0 <= i -> filter_one_vlr pts ix q l i v s = Ok k -> filter_one_vlr pts ix q (l ++ tail) i v s = Ok k.
Proof.
  intros Hi. unfold filter_one_vlr. destruct (v_size v =? 0); [discriminate|]. destruct (_ <? _); [auto|]. cbn zeta.
  repeat match goal with |- match ?m with Some _ => _ | None => _ end = _ -> _ => destruct m; [|auto] end.
  destruct (_ <? _); [|auto]. intros E.
  destruct (gather (S (length l)) l _ _ _ _) as [[j c]|e|u] eqn:EG; cbn [obind] in E; try discriminate.
  rewrite (gather_more _ _ tail _ _ _ _ _ _ EG Hi (S (length (l ++ tail)))) by (rewrite app_length; lia). exact E.
Qed.
Lemma gather_range fuel : forall l drs i comp unread k r, gather fuel l drs i comp unread = Ok (k, r) -> 0 <= i -> i <= k.
Proof.
  induction fuel as [|fuel IH]; intros l drs i comp unread k r E Hi; cbn [gather] in E; destruct (unread <=? 0); try discriminate.
  - injection E. lia.
  - injection E. lia.
  - cbn zeta in E. destruct (nth_error l _) as [v|]; [|discriminate]. destruct (_ <? _); [injection E; lia|]. destruct (_ <? _); [discriminate|]. apply IH in E; lia.
Qed.
Lemma one_vlr_range pts ix q l i v s j s1 ok dn : 0 <= i -> filter_one_vlr pts ix q l i v s = Ok (j, s1, ok, dn) -> i <= j.
Proof.
  intros Hi. unfold filter_one_vlr. destruct (v_size v =? 0); [discriminate|]. destruct (_ <? _); [intros E; injection E; lia|]. cbn zeta.
  repeat match goal with |- match ?m with Some _ => _ | None => _ end = _ -> _ => destruct m; [|intros E; injection E; lia] end.
  intros E. apply obind_ok in E. destruct E as ((k, c) & EK & E).
  assert (K : i <= k). { destruct (_ <? _); [now apply gather_range in EK|]. apply (f_equal (fun o => match o with Ok x => fst x | _ => i end)) in EK. cbn [fst] in EK. lia. }
  destruct c as [c|]; [|injection E; lia]. destruct (vlr_interesting _ _ _ _ _).
  - destruct (match fs_it s with Some t => _ | None => _ end) as [[a b] d]. apply obind_ok in E. destruct E as ((v1, ok1) & _ & E).
    destruct (negb ok1); [injection E; lia|]. destruct (_ <=? _); injection E; lia.
  - injection E. lia.
Qed.

(** VLRs of other kinds after those the query has used; no iterator *)
Definition other (d : Z) (v : vlr) : bool := negb (zlist_eqb (vlr_get_user false v) liblas_user && ((v_id v =? 42) || (v_id v =? d))).
Lemma tail_loop pts ix q tail : forallb (other (ih_data (ix_h ix))) tail = true -> forall fuel pre i s, lenB pre <= i -> (length tail <= fuel)%nat ->
  exists k, filter_loop fuel pts (pre ++ tail) ix q i s = Ok (ix, q, s, k).
Proof.
  intros HT fuel. induction fuel as [|fuel IH]; intros pre i s Hi Hf; cbn [filter_loop].
  - destruct tail; [|cbn [List.length] in Hf; lia]. rewrite app_nil_r. replace (lenB pre <=? i) with true by lia. eauto.
  - destruct (lenB (pre ++ tail) <=? i) eqn:EL; [eauto|]. rewrite app_length in EL.
    destruct (nth_error (pre ++ tail) (Z.to_nat i)) as [v|] eqn:EN; [|apply nth_error_None in EN; rewrite app_length in EN; lia].
    rewrite nth_error_app2 in EN by lia. pose proof (nth_error_In _ _ EN) as IN. rewrite forallb_forall in HT. pose proof (HT v IN) as HV.
    unfold other in HV. apply negb_true_iff in HV.
    assert (G : exists k, filter_loop fuel pts (pre ++ tail) ix q (i + 1) s = Ok (ix, q, s, k)).
    { assert (LT : (Z.to_nat i - length pre < length tail)%nat) by (apply nth_error_Some; congruence).
      destruct (Nat.le_gt_cases (length tail) fuel) as [L|L].
      - apply IH; [|exact L]. lia.
      - (* the list from i + 1 on is shorter *)
        set (m := (Z.to_nat i + 1 - length pre)%nat).
        assert (ET : pre ++ tail = (pre ++ firstn m tail) ++ skipn m tail) by (rewrite <- app_assoc, firstn_skipn; reflexivity).
        clear IH. rewrite ET.
        assert (GEN : forall fuel t p j, lenB p <= j -> (length t <= fuel)%nat -> forallb (other (ih_data (ix_h ix))) t = true -> exists k, filter_loop fuel pts (p ++ t) ix q j s = Ok (ix, q, s, k)).
        { clear. intros fuel. induction fuel as [|fuel IH]; intros t p j Hj Hf HT; cbn [filter_loop].
          - destruct t; [|cbn [List.length] in Hf; lia]. rewrite app_nil_r. replace (lenB p <=? j) with true by lia. eauto.
          - destruct (lenB (p ++ t) <=? j) eqn:EL; [eauto|]. rewrite app_length in EL.
            destruct (nth_error (p ++ t) (Z.to_nat j)) as [v|] eqn:EN; [|apply nth_error_None in EN; rewrite app_length in EN; lia].
            rewrite nth_error_app2 in EN by lia. pose proof (nth_error_In _ _ EN) as IN. pose proof HT as HT'. rewrite forallb_forall in HT'. pose proof (HT' v IN) as HV.
            unfold other in HV. apply negb_true_iff in HV.
            set (m := (Z.to_nat j + 1 - length p)%nat).
            assert (ET : p ++ t = (p ++ firstn m t) ++ skipn m t) by (rewrite <- app_assoc, firstn_skipn; reflexivity).
            assert (G : exists k, filter_loop fuel pts (p ++ t) ix q (j + 1) s = Ok (ix, q, s, k)).
            { rewrite ET. apply IH; [rewrite app_length, firstn_length; lia|rewrite skipn_length; lia|]. apply forallb_forall. intros w Hw. apply HT'. rewrite <- (firstn_skipn m t). apply in_or_app. now right. }
            destruct (zlist_eqb _ _); [|exact G]. cbn [andb] in HV. destruct (v_id v =? 42); [discriminate|]. destruct (v_id v =? ih_data (ix_h ix)); [discriminate|exact G]. }
        apply GEN; [rewrite app_length, firstn_length; lia|rewrite skipn_length; lia|]. apply forallb_forall. intros w Hw. apply HT. rewrite <- (firstn_skipn m tail). apply in_or_app. now right. }
    destruct (zlist_eqb _ _); [|exact G]. cbn [andb] in HV. destruct (v_id v =? 42); [discriminate|]. destruct (v_id v =? ih_data (ix_h ix)); [discriminate|exact G].
Qed.
Lemma loop_more pts tail fuel : forall l ix q i s ix1 q1 s1 k, 0 <= i -> 
  filter_loop fuel pts l ix q i s = Ok (ix1, q1, s1, k) -> forallb (other (ih_data (ix_h ix1))) tail = true ->
  forall fuel', (fuel + length tail <= fuel')%nat -> exists k', filter_loop fuel' pts (l ++ tail) ix q i s = Ok (ix1, q1, s1, k').
Proof.
  induction fuel as [|fuel IH]; intros l ix q i s ix1 q1 s1 k Hi E HT fuel' Hf; cbn [filter_loop] in E.
  - destruct (lenB l <=? i) eqn:EL; [|discriminate]. injection E as <- <- <- <-. apply tail_loop; [exact HT|lia|lia].
  - destruct (lenB l <=? i) eqn:EL; [injection E as <- <- <- <-; apply tail_loop; [exact HT|lia|lia]|].
    destruct fuel' as [|fuel']; [lia|]. cbn [filter_loop]. replace (lenB (l ++ tail) <=? i) with false by (rewrite app_length; lia).
    destruct (nth_error l (Z.to_nat i)) as [v|] eqn:EN; [|discriminate]. rewrite nth_error_app1 by (apply nth_error_Some; congruence). rewrite EN.
    assert (G : forall ix q s i', i <= i' -> filter_loop fuel pts l ix q i' s = Ok (ix1, q1, s1, k) -> exists k', filter_loop fuel' pts (l ++ tail) ix q i' s = Ok (ix1, q1, s1, k')).
    { intros ix2 q2 s2 i' Hi' E2. eapply IH; eauto; lia. }
    clear IH. destruct (zlist_eqb _ _); [|apply (G ix q s); [lia|exact E]]. destruct (v_id v =? 42).
    + destruct (load_index_vlr ix v) as [[ix2 ok]|e|u]; cbn [obind] in *; try discriminate. destruct (negb ok); [eauto|].
      destruct (set_cell_bounds ix2 q) as [q2|e|u]; cbn [obind] in *; try discriminate. destruct (bounds_intersects _ _) as [m|e|u]; cbn [obind] in *; try discriminate.
      destruct (negb m); [eauto|]. destruct (match fs_it s with Some _ => _ | None => _ end); [eauto|]. apply (G ix2 q2 s); [lia|exact E].
    + destruct (v_id v =? ih_data (ix_h ix)); [|apply (G ix q s); [lia|exact E]].
      destruct (filter_one_vlr pts ix q l i v s) as [[[[j s2] ok] dn]|e|u] eqn:EO; cbn [obind] in *; try discriminate.
      pose proof (one_vlr_range _ _ _ _ _ _ _ _ _ _ _ Hi EO) as Hj. rewrite (one_vlr_more _ _ _ _ tail _ _ _ _ Hi EO). cbn [obind].
      destruct (negb ok); [eauto|]. destruct (fs_it s2) as [t|]; [|apply (G ix q s2); [lia|exact E]]. cbn zeta in *.
      destruct (full _); [eauto|]. apply G with (2 := E). lia.
Qed.
Lemma filter_tail pts l tail ix q cur ix1 q1 s1 : index_filter pts l ix q cur None = Ok (ix1, q1, s1) -> forallb (other (ih_data (ix_h ix1))) tail = true ->
  exists s2, index_filter pts (l ++ tail) ix q cur None = Ok (ix1, q1, s2) /\ fs_res s2 = fs_res s1.
Proof.
  unfold index_filter. intros E HT. apply obind_ok in E. destruct E as ((((ix2, q2), s2), k) & E & R).
  injection R as <- <- <-.
  destruct (loop_more _ tail _ _ _ _ _ _ _ _ _ _ (Z.le_refl 0) E HT (S (length (l ++ tail)))) as (k' & E2); [rewrite app_length; lia|].
  rewrite E2. cbn [obind]. eexists. split; [reflexivity|]. unfold with_it. destruct (fs_it s2); reflexivity.
Qed.

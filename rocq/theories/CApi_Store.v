(** Proofs about the C API model: setters and getters. *)
From Coq Require Import ZArith List Bool String Lia Reals.
Import ListNotations.
From Verif Require Import Outcome Bytes CStr Float64 Float64_Proofs Endian_Model Classif_Model Vlr_Model Schema_Model Header_Model Point_Model Point_Spec Point_Api Point_Proofs Point_Hist Coord_Api Stream_Model Reader_Model Reader_Api IO_Spec Reader_Spec Reader_Proofs Reader_Open Reader_Hist Hdr_Proofs Writer_Append Prop_Coord CApi_Model CApi_Spec CApi_Proofs CApi_Safe CApi_More.
Local Open Scope Z_scope.
Local Notation length := List.length (only parsing).

Lemma pair_ok {A B} (t u : A) (r w : B) : Ok (t, r) = Ok (u, w) -> t = u /\ r = w.
Proof. intros E. apply Ok_inj in E. split; [exact (f_equal fst E)|exact (f_equal snd E)]. Qed.

(** ** VLRs *)
Definition vget (g : call) (x : vlr) : outcome res :=
  match g with
  | VlrGetN a _ => Ok (Num (vnum_get a x))
  | VlrGetT a _ => Ok (Text (Some (until_nul (vtext_get a x))))
  | VlrGetData _ room => let len := Z.to_nat (v_size x) in if ((length (v_data x) <? len)%nat || (room <? len)%nat) then UB UBOutOfBounds else Ok (Bytes (firstn len (v_data x)))
  | _ => UB UBNull
  end.
Definition vset (c : call) (x : vlr) : vlr :=
  match c with
  | VlrSetN a _ v => vnum_set a x v
  | VlrSetT a _ (Some t) => match vtext_set a x (until_nul t) with Ok y => y | _ => x end
  | VlrSetData _ d len => vlr_set_data x (firstn (Z.to_nat len) d)
  | _ => x
  end.
Lemma vget_ok dh xml doy year s g n x : asks g = OVlr n -> nth_error (c_vlrs s) n = Some (Some x) -> cstep dh xml doy year s g = let! a := vget g x in Ok (s, a).
Proof.
  intros A E. destruct g; cbn [asks of_v of_h of_p] in A; try discriminate; try (destruct h; discriminate); try (destruct p; discriminate);
    destruct v; try discriminate; injection A as ->; unfold cstep; cbv zeta; cbn [valid]; unfold object; rewrite E; cbn [obind vget]; try reflexivity.
  destruct (_ || _); reflexivity.
Qed.
Definition is_set (c : call) : bool := returns_status c.
Lemma vset_ok dh xml doy year s c n x t r : is_set c = true -> may_change c = OVlr n -> nth_error (c_vlrs s) n = Some (Some x) -> cstep dh xml doy year s c = Ok (t, r) ->
  nth_error (c_vlrs t) n = Some (Some (vset c x)) /\ (r = Num 0 -> forall a v l, c = VlrSetT a v (Some l) -> exists y, vtext_set a x (until_nul l) = Ok y).
Proof.
  intros S A E H. destruct c; cbn [may_change of_v of_h of_p] in A; try discriminate; try (destruct h; discriminate); try (destruct p; discriminate);
    destruct v; try discriminate; injection A as ->; unfold cstep in H; cbv zeta in H; cbn [valid] in H; unfold object in H; rewrite E in H; cbn [obind vset] in *.
  - apply pair_ok in H as (<- & <-). split; [|intros; discriminate]. cbn [c_vlrs set_vlrs]. eapply set_same. exact E.
  - destruct t0 as [l|]; [|discriminate]. cbn [c_string obind] in H. destruct (vtext_set a x (until_nul l)) as [y|e|u] eqn:V; cbn [obind tried] in H; try discriminate; apply pair_ok in H as (<- & <-).
    + split; [cbn [c_vlrs set_vlrs]; eapply set_same; exact E|]. intros _ a' v' l' Q. injection Q as <- <- <-. eauto.
    + split; [exact E|]. intros Q. discriminate.
  - destruct (_ <? _)%nat; [discriminate|]. apply pair_ok in H as (<- & <-). split; [|intros; discriminate]. cbn [c_vlrs set_vlrs]. eapply set_same. exact E.
Qed.
Lemma vframe c g x n m : is_set c = true -> may_change c = OVlr n -> asks g = OVlr m -> vlr_wf x -> (forall a v l, c = VlrSetT a v (Some l) -> bytes_ok l) -> disturbs c g = false -> vget g (vset c x) = vget g x.
Proof.
  intros S A G W BO D. destruct c; cbn [may_change of_v of_h of_p] in A; try discriminate S; try (destruct h; discriminate A); try (destruct p; discriminate A);
    destruct g; cbn [asks of_v of_h of_p] in G; try discriminate G; try (destruct h; discriminate G); try (destruct p; discriminate G); cbn [disturbs] in D; cbn [vget vset]; try discriminate D.
  - destruct a, a0; try discriminate; reflexivity.
  - destruct a, a0; reflexivity.
  - destruct a; try discriminate; reflexivity.
  - destruct t as [l|]; [|reflexivity]. destruct (vtext_set a x (until_nul l)) eqn:V; try reflexivity. destruct a; cbn [vtext_set] in V.
    + pose proof (vlr_set_user_spec x _ W (bytes_until_nul l (BO _ _ _ eq_refl))) as Z. destruct (_ <=? _)%nat; [|congruence]. destruct Z as (v' & Z & _ & _ & _ & _ & Z1 & Z2 & Z3 & Z4 & Z5). rewrite Z in V. apply Ok_inj in V. subst.
      destruct a0; cbn [vnum_get]; congruence.
    + pose proof (vlr_set_desc_spec x _ W (bytes_until_nul l (BO _ _ _ eq_refl))) as Z. destruct (_ <=? _)%nat; [|congruence]. destruct Z as (v' & Z & _ & _ & _ & _ & Z1 & Z2 & Z3 & Z4 & Z5). rewrite Z in V. apply Ok_inj in V. subst.
      destruct a0; cbn [vnum_get]; congruence.
  - destruct t as [l|]; [|reflexivity]. destruct (vtext_set a x (until_nul l)) eqn:V; try reflexivity. destruct a, a0; try discriminate; cbn [vtext_set] in V.
    + pose proof (vlr_set_user_spec x _ W (bytes_until_nul l (BO _ _ _ eq_refl))) as Z. destruct (_ <=? _)%nat; [|congruence]. destruct Z as (v' & Z & _ & _ & _ & _ & Z1 & Z2 & Z3 & Z4 & Z5). rewrite Z in V. apply Ok_inj in V. subst.
      cbn [vtext_get]. unfold vlr_get_desc. now rewrite Z1.
    + pose proof (vlr_set_desc_spec x _ W (bytes_until_nul l (BO _ _ _ eq_refl))) as Z. destruct (_ <=? _)%nat; [|congruence]. destruct Z as (v' & Z & _ & _ & _ & _ & Z1 & Z2 & Z3 & Z4 & Z5). rewrite Z in V. apply Ok_inj in V. subst.
      cbn [vtext_get]. unfold vlr_get_user. now rewrite Z1.
  - destruct t as [l|]; [|reflexivity]. destruct (vtext_set a x (until_nul l)) eqn:V; try reflexivity. destruct a; cbn [vtext_set] in V.
    + pose proof (vlr_set_user_spec x _ W (bytes_until_nul l (BO _ _ _ eq_refl))) as Z. destruct (_ <=? _)%nat; [|congruence]. destruct Z as (v' & Z & _ & _ & _ & _ & Z1 & Z2 & Z3 & Z4 & Z5). rewrite Z in V. apply Ok_inj in V. subst.
      now rewrite Z2, Z5.
    + pose proof (vlr_set_desc_spec x _ W (bytes_until_nul l (BO _ _ _ eq_refl))) as Z. destruct (_ <=? _)%nat; [|congruence]. destruct Z as (v' & Z & _ & _ & _ & _ & Z1 & Z2 & Z3 & Z4 & Z5). rewrite Z in V. apply Ok_inj in V. subst.
      now rewrite Z2, Z5.
  - destruct a; reflexivity.
  - destruct a; reflexivity.
Qed.

(** ** headers *)
Definition hget (g : call) (x : header) : outcome res :=
  match g with
  | HdrGetN a _ => Ok (Num (hnum_get a x))
  | HdrRead a _ => Ok (Num (hread_get a x))
  | HdrSignature _ => Ok (Text (Some (until_nul (get_file_signature x))))
  | HdrGetT a _ => Ok (Text (Some (until_nul (htext_get a x))))
  | HdrGetR a i _ => Ok (Real (axis_of i (hreal_get a x)))
  | HdrGetReturns _ i => if (i <? 5) && (0 <=? i) then let! v := deref (h_byret x) i in Ok (Num v) else Ok (Num 0)
  | _ => UB UBNull
  end.
(** [vs]: the VLR behind the handle given to LASHeader_AddVLR *)
Definition hset (vs : list (option vlr)) (c : call) (x : header) : header :=
  match c with
  | HdrSetN a _ v => fst (hnum_set a x v)
  | HdrSetT a _ (Some t) => match htext_set a x (until_nul t) with Ok y => y | _ => x end
  | HdrSetR a _ i j k => hreal_set a x i j k
  | HdrSetReturns _ i v => match set_by_return x (i mod 2 ^ 64) v with Ok y => y | _ => x end
  | HdrDeleteVlr _ i => match delete_vlr x i with Ok y => y | _ => x end
  | HdrAddVlr _ (At m) => match object vs m with Ok v => add_vlr x v | _ => x end
  | _ => x
  end.
Lemma hget_ok dh xml doy year s g n x : asks g = OHdr n -> nth_error (c_hdrs s) n = Some (Some (Some x)) -> cstep dh xml doy year s g = let! a := hget g x in Ok (s, a).
Proof.
  intros A E. destruct g; cbn [asks of_v of_h of_p] in A; try discriminate; try (destruct v; discriminate); try (destruct p; discriminate);
    destruct h; try discriminate; injection A as ->; unfold cstep; cbv zeta; cbn [hdr_valid]; unfold object; rewrite E; cbn [obind hget]; try reflexivity.
  destruct (_ && _); [|reflexivity]. destruct (deref (h_byret x) i); reflexivity.
Qed.
Lemma hset_ok dh xml doy year s c n x t r : is_set c = true -> may_change c = OHdr n -> nth_error (c_hdrs s) n = Some (Some (Some x)) -> cstep dh xml doy year s c = Ok (t, r) ->
  nth_error (c_hdrs t) n = Some (Some (Some (hset (c_vlrs s) c x))) /\
  (r = Num 0 -> (forall a v l, c = HdrSetT a v (Some l) -> exists y, htext_set a x (until_nul l) = Ok y) /\ (forall a v l, c = HdrSetN a v l -> snd (hnum_set a x l) = Ok tt) /\
    (forall h i v, c = HdrSetReturns h i v -> exists y, set_by_return x (i mod 2 ^ 64) v = Ok y)).
Proof.
  intros S A E H. destruct c; cbn [may_change of_v of_h of_p] in A; try discriminate S; try (destruct v; discriminate); try (destruct p; discriminate);
    destruct h; try discriminate; injection A as ->; unfold cstep in H; cbv zeta in H; cbn [hset].
  - assert (G : nth_error (c_hdrs t) n = Some (Some (Some (fst (hnum_set a x x0)))) /\ (r = Num 0 -> snd (hnum_set a x x0) = Ok tt)).
    { destruct a; unfold hdr_valid, valid in H; unfold object in H; rewrite E in H; cbn [obind] in H.
      all: match type of H with context [hnum_set ?aa ?yy ?vv] => destruct (hnum_set aa yy vv) as (x', [[]|e|u]) end; try discriminate; cbn [fst snd]; apply pair_ok in H as (<- & <-); (split; [|intros Q; try discriminate Q; reflexivity]).
      all: unfold push; cbn [c_hdrs set_errs put_hdr set_hdrs]; unfold put; eapply set_same; exact E. }
    destruct G as (G1 & G2). split; [exact G1|]. intros Q. split; [intros; discriminate|]. split; [|intros; discriminate]. intros a' v' l' X. injection X as <- <- <-. auto.
  - cbn [hdr_valid] in H. unfold object in H. rewrite E in H. cbn [obind] in H. destruct t0 as [l|]; [|discriminate]. cbn [c_string obind] in H.
    destruct (htext_set a x (until_nul l)) as [y|e|u] eqn:V; cbn [obind tried] in H; try discriminate; apply pair_ok in H as (<- & <-).
    + split; [eapply set_same; exact E|]. intros _. split; [|split; intros; discriminate]. intros a' v' l' Q. injection Q as <- <- <-. eauto.
    + split; [exact E|]. intros Q. discriminate.
  - cbn [hdr_valid] in H. unfold object in H. rewrite E in H. cbn [obind] in H. apply pair_ok in H as (<- & <-). split; [eapply set_same; exact E|]. intros _. repeat split; intros; discriminate.
  - cbn [hdr_valid] in H. unfold object in H. rewrite E in H. cbn [obind] in H. destruct (set_by_return x (i mod 2 ^ 64) x0) as [y|e|u] eqn:V; cbn [obind tried] in H; try discriminate; apply pair_ok in H as (<- & <-).
    + split; [eapply set_same; exact E|]. intros _. split; [intros; discriminate|]. split; [intros; discriminate|]. intros h' i' v' Q. injection Q as <- <- <-. eauto.
    + split; [exact E|]. intros Q. discriminate.
  - cbn [hdr_valid] in H. unfold object in H. rewrite E in H. cbn [obind] in H. destruct (delete_vlr x i) as [y|e|u] eqn:V; cbn [obind tried] in H; try discriminate; apply pair_ok in H as (<- & <-).
    + split; [eapply set_same; exact E|]. intros _. repeat split; intros; discriminate.
    + split; [exact E|]. intros Q. discriminate.
  - cbn [hdr_valid] in H. unfold object in H at 1. rewrite E in H. cbn [obind] in H. destruct v as [|m]; cbn [valid] in H.
    + apply pair_ok in H as (<- & <-). split; [exact E|]. intros Q. discriminate.
    + destruct (object (c_vlrs s) m) as [v|e|u]; cbn [obind] in H; try discriminate. apply pair_ok in H as (<- & <-). split; [eapply set_same; exact E|]. intros _. repeat split; intros; discriminate.
Qed.
Lemma deref_set (l : list Z) i j v : i <> j -> 0 <= i -> deref (list_set l (Z.to_nat i) v) j = deref l j.
Proof.
  intros N P. unfold deref. rewrite list_set_length. destruct (0 <=? j) eqn:B; cbn [andb]; [|reflexivity]. apply Z.leb_le in B. destruct (_ <? _); [|reflexivity].
  rewrite set_other; [reflexivity|]. intros X. apply N. lia.
Qed.
Lemma hframe vs c g x n m : is_set c = true -> may_change c = OHdr n -> asks g = OHdr m -> (forall h i v, c = HdrSetReturns h i v -> in_signed 32 i) -> disturbs c g = false -> hget g (hset vs c x) = hget g x.
Proof.
  intros S A G I D.
  assert (SC : forall a v, (a <> HDataFormatId -> get_format (fst (hnum_set a x v)) = get_format x /\ get_record_length (fst (hnum_set a x v)) = get_record_length x)).
  { intros a v N. destruct a; try congruence; cbn [hnum_set]; unfold set_version_major, set_version_minor; try destruct (_ || _); try destruct (_ <? _); split; reflexivity. }
  destruct c; cbn [may_change of_v of_h of_p] in A; try discriminate S; try (destruct v; discriminate A); try (destruct p; discriminate A); cbn [hset].
  - assert (X : hset vs (HdrSetN a h x0) x = fst (hnum_set a x x0)) by reflexivity. clear A I.
    destruct g; cbn [asks of_v of_h of_p] in G; try discriminate G; try (destruct v; discriminate G); try (destruct p; discriminate G); cbn [disturbs] in D; cbn [hget].
    + destruct a, a0; try discriminate D; cbn [hnum_set]; unfold set_version_major, set_version_minor, set_header_format; try destruct (_ || _); try destruct (_ <? _); try (destruct (set_format _ _)); reflexivity.
    + destruct a, a0; try discriminate D; cbn [hnum_set]; unfold set_version_major, set_version_minor, set_header_format; try destruct (_ || _); try destruct (_ <? _); try (destruct (set_format _ _)); reflexivity.
    + destruct a; cbn [hnum_set]; unfold set_version_major, set_version_minor, set_header_format; try destruct (_ || _); try destruct (_ <? _); try (destruct (set_format _ _)); reflexivity.
    + destruct a, a0; cbn [hnum_set]; unfold set_version_major, set_version_minor, set_header_format; try destruct (_ || _); try destruct (_ <? _); try (destruct (set_format _ _)); reflexivity.
    + destruct a, a0; cbn [hnum_set]; unfold set_version_major, set_version_minor, set_header_format; try destruct (_ || _); try destruct (_ <? _); try (destruct (set_format _ _)); reflexivity.
    + destruct (_ && _); [|reflexivity]. destruct a; cbn [hnum_set]; unfold set_version_major, set_version_minor, set_header_format; try destruct (_ || _); try destruct (_ <? _); try (destruct (set_format _ _)); reflexivity.
  - destruct t as [l|]; [|reflexivity]. destruct g; cbn [asks of_v of_h of_p] in G; try discriminate G; try (destruct v; discriminate G); try (destruct p; discriminate G); cbn [disturbs] in D; cbn [hget].
    all: destruct a; try destruct a0; try discriminate D; cbn [htext_set]; unfold set_system_id, set_software_id; destruct (_ <? _)%nat; try reflexivity; destruct (_ && _); reflexivity.
  - destruct g; cbn [asks of_v of_h of_p] in G; try discriminate G; try (destruct v; discriminate G); try (destruct p; discriminate G); cbn [disturbs] in D; cbn [hget].
    all: destruct a; try destruct a0; try discriminate D; try reflexivity; destruct (_ && _); reflexivity.
  - unfold set_by_return. destruct (_ && _) eqn:B; [|reflexivity]. destruct g; cbn [asks of_v of_h of_p] in G; try discriminate G; try (destruct v; discriminate G); try (destruct p; discriminate G); cbn [disturbs] in D; cbn [hget]; try reflexivity.
    match goal with |- context [(?j <? 5) && (0 <=? ?j)] => destruct ((j <? 5) && (0 <=? j)) eqn:C end; [|reflexivity]. cbn [h_upd_byret h_byret]. rewrite deref_set; [reflexivity| |apply Z.mod_pos_bound; lia].
    apply Z.eqb_neq in D. apply andb_true_iff in C as (C1 & C2). apply Z.ltb_lt in C1. apply Z.leb_le in C2. pose proof (I _ _ _ eq_refl) as J. unfold in_signed in J. intros X. apply D.
    destruct (Z.lt_ge_cases i 0) as [N|N]; [|rewrite Z.mod_small in X by lia; exact X].
    assert (i mod 2 ^ 64 = i + 2 ^ 64) by (symmetry; apply (Z.mod_unique_pos _ _ (-1)); lia). lia.
  - unfold delete_vlr. destruct (_ <=? _); [reflexivity|]. destruct g; cbn [asks of_v of_h of_p] in G; try discriminate G; try (destruct v; discriminate G); try (destruct p; discriminate G); cbn [disturbs] in D; cbn [hget]; try reflexivity; try (destruct a; try discriminate D; reflexivity).
  - destruct v as [|k]; [reflexivity|]. destruct (object vs k) as [w|e|u]; try reflexivity.
    destruct g; cbn [asks of_v of_h of_p] in G; try discriminate G; try (destruct v; discriminate G); try (destruct p; discriminate G); cbn [disturbs] in D; cbn [hget]; try reflexivity; try (destruct a; try discriminate D; reflexivity).
Qed.

(** ** points *)
Definition pget (g : call) (q : point) : outcome res :=
  match g with
  | PtGetN a _ => let! v := pnum_get a q in Ok (Num v)
  | PtGetR a _ => let! v := preal_get a q in Ok (Real v)
  | PtGetTime _ => match get_time q with Throw e => if is_runtime e then Ok (Real f64_zero) else Throw e | o => let! v := o in Ok (Real v) end
  | PtGetColor _ => match get_color q with Throw e => if is_runtime e then Ok (Rgb color_black) else Throw e | o => let! v := o in Ok (Rgb v) end
  | PtGetData _ room => let size := Z.to_nat (get_record_length (p_hdr q)) in
      if ((length (p_data q) <? size)%nat || (room <? size)%nat) then UB UBOutOfBounds else Ok (Bytes (firstn size (p_data q)))
  | _ => UB UBNull
  end.
Definition is_pt (o : obj) : Prop := match o with OPt _ | ORdr _ => True | _ => False end.
Definition pp (o : obj) : pptr := match o with OPt n => POwn n | ORdr n => PRd n | _ => PNull end.
Lemma of_pp p : p <> PNull -> pp (of_p p) = p.
Proof. now destruct p. Qed.
Lemma pget_ok dh xml doy year s g q r : is_pt (asks g) -> point_at dh s (pp (asks g)) = Ok (q, r) -> cstep dh xml doy year s g = let! a := pget g q in Ok (s, a).
Proof.
  intros A E. destruct g; cbn [asks of_v of_h of_p] in A, E; try contradiction; try (destruct h; contradiction); try (destruct v; contradiction);
    destruct p as [|n|n]; cbn [of_p is_pt pp] in A, E; try contradiction; unfold cstep; cbv zeta; cbn [pt_valid]; rewrite E; cbn [obind pget].
  all: try (match goal with |- context [pnum_get ?a ?q] => destruct (pnum_get a q) | |- context [preal_get ?a ?q] => destruct (preal_get a q) end; reflexivity).
  all: try (match goal with |- context [get_time ?q] => destruct (get_time q) | |- context [get_color ?q] => destruct (get_color q) end; try reflexivity; destruct (is_runtime e); reflexivity).
  all: destruct (_ || _); reflexivity.
Qed.
Lemma point_at_put dh s p q r d : point_at dh s p = Ok (q, r) -> point_at dh (put_data s p d) p = Ok (mkPoint d (p_hdr q), r).
Proof.
  destruct p as [|n|n]; cbn [point_at put_data]; [discriminate| |].
  - unfold object. destruct (nth_error (c_pts s) n) as [[x|]|] eqn:E; cbn [obind]; try discriminate. intros H. apply bind_ok in H as (h & H & X). apply pair_ok in X as (<- & <-).
    cbn [c_pts set_pts]. unfold put. rewrite (set_same _ _ _ _ E). cbn [obind cp_hdr cp_data p_hdr]. change (header_of dh (set_pts s (list_set (c_pts s) n (Some (mkCP d (cp_hdr x))))) (cp_hdr x)) with (header_of dh s (cp_hdr x)).
    rewrite H. reflexivity.
  - unfold object. destruct (nth_error (c_rdrs s) n) as [[x|]|] eqn:E; cbn [obind]; try discriminate. intros H. apply pair_ok in H as (<- & <-).
    cbn [c_rdrs set_rdrs]. unfold put. rewrite (set_same _ _ _ _ E). reflexivity.
Qed.
Definition kept (K : attr -> bool) (q q' : point) : Prop := forall b, K b = true -> attr_range (p_format q) b <> None -> api_get b q' = api_get b q.
Section kept.
Context (K : attr -> bool) (q q' : point) (W : point_wf q) (W' : point_wf q') (HH : p_hdr q' = p_hdr q) (F : kept K q q').
Lemma kept_num a : K (pattr a) = true -> pnum_get a q' = pnum_get a q.
Proof. intros H. rewrite !pnum_get_api. apply F; [exact H|]. destruct (attr_of_range (p_format q) a) as (? & ? & ? & -> & _). discriminate. Qed.
Lemma kept_real a : K (pattr (PRaw a)) = true -> preal_get a q' = preal_get a q.
Proof. intros H. pose proof (kept_num (PRaw a) H) as E. destruct a; cbn [pnum_get preal_get] in *; unfold get_x, get_y, get_z; rewrite E, HH; reflexivity. Qed.
Lemma p_format_kept : p_format q' = p_format q.
Proof. unfold p_format. now rewrite HH. Qed.
Lemma kept_time : K ATime = true -> get_time q' = get_time q.
Proof.
  intros H. destruct (attr_range (p_format q) ATime) as [x|] eqn:R.
  - assert (E : api_get ATime q' = api_get ATime q) by (apply F; [exact H|congruence]). destruct (get_time_ok q W) as (t & T), (get_time_ok q' W') as (t' & T').
    cbn [api_get] in E. rewrite T, T' in *. cbn in E. apply Ok_inj in E. f_equal. rewrite <- (f64_of_bits_bits t), <- (f64_of_bits_bits t'). now rewrite E.
  - destruct (time_absent q W R) as (_ & ->). rewrite <- p_format_kept in R. now destruct (time_absent q' W' R) as (_ & ->).
Qed.
Lemma kept_color : K ARed = true -> K AGreen = true -> K ABlue = true -> get_color q' = get_color q.
Proof.
  intros H1 H2 H3. destruct (attr_range (p_format q) ARed) as [x|] eqn:R.
  - assert (RG : attr_range (p_format q) AGreen <> None /\ attr_range (p_format q) ABlue <> None) by (cbn in R |- *; destruct (p_format q =? 2), (p_format q =? 3); try discriminate; split; discriminate).
    assert (E1 : api_get ARed q' = api_get ARed q) by (apply F; [exact H1|congruence]). assert (E2 : api_get AGreen q' = api_get AGreen q) by (apply F; tauto). assert (E3 : api_get ABlue q' = api_get ABlue q) by (apply F; tauto).
    destruct (get_color_wf q W) as (t & T), (get_color_wf q' W') as (t' & T').
    cbn [api_get] in *. rewrite T, T' in *. cbn in E1, E2, E3. apply Ok_inj in E1, E2, E3. f_equal. destruct t, t'. cbn in *. congruence.
  - destruct (color_absent q W R) as (_ & ->). rewrite <- p_format_kept in R. now destruct (color_absent q' W' R) as (_ & ->).
Qed.
End kept.

Section store.
Context (dh : header) (xml : vlr -> outcome schema) (doy year : Z) (Hdh : header_wf dh) (Ldh : layout_ok dh).
Lemma overlap_time a : overlapping (pattr a) ATime = false /\ overlapping (pattr a) ARed = false /\ overlapping (pattr a) AGreen = false /\ overlapping (pattr a) ABlue = false.
Proof. destruct a as [[]| | | | | | | | | |]; repeat split. Qed.
Lemma fmt_range a f b w sg : attr_range 0 (pattr a) = Some (b, w, sg) -> attr_range f (pattr a) = Some (b, w, sg).
Proof. destruct a as [[]| | | | | | | | | |]; exact (fun e => e). Qed.

(** a setter on a point: the new point, and what it left alone *)
Lemma pset_ok s c q r0 t r : sound dh xml s -> careful dh xml s c -> is_set c = true -> fits c -> is_pt (may_change c) -> live_pt dh s (pp (may_change c)) q ->
  point_at dh s (pp (may_change c)) = Ok (q, r0) -> cstep dh xml doy year s c = Ok (t, r) ->
  exists q', point_at dh t (pp (may_change c)) = Ok (q', r0) /\ (forall g, is_pt (asks g) -> disturbs c g = false -> pget g q' = pget g q) /\
    (forall g v, stores dh s c g v -> pget g q' = Ok v) /\
    (forall a p v, c = PtSetR a p v -> exists x, preal_get a q' = Ok x /\ f64_fin x = true /\
      (Rbasic_fun.Rabs (f64_R x - f64_R v) <= Rbasic_fun.Rabs (f64_R (axis_of a (h_scale (p_hdr q)))) * (/ 2 + / 131072) + / 9007199254740992 * Rbasic_fun.Rabs (f64_R (axis_of a (h_offset (p_hdr q)))))%R).
Proof.
  intros H CF S FT A L E X. destruct (live_at dh xml Hdh s _ q H L) as (_ & (P1 & LP) & _). assert (W : point_wf q) by now destruct q.
  assert (DET : forall q1, live_pt dh s (pp (may_change c)) q1 -> q1 = q).
  { intros q1 L1. destruct (live_at dh xml Hdh s _ q1 H L1) as ((r1 & E1 & _) & _). rewrite E in E1. apply Ok_inj in E1. now apply (f_equal fst) in E1. }
  destruct c; cbn [may_change of_v of_h of_p] in A, L, E, DET; try discriminate S; try (destruct h; contradiction); try (destruct v; contradiction); clear S.
  all: assert (NP : p <> PNull) by (intros ->; exact A); cbn [may_change]; rewrite (of_pp p NP) in *.
  all: assert (PV : forall m rc k, pt_valid dh s m rc p k = k q) by (intros; destruct p; [now elim NP| |]; cbn [pt_valid]; rewrite E; reflexivity).
  all: unfold cstep in X; cbv zeta in X; rewrite PV in X.
  - destruct FT as (b & w & sg & R & VF). apply (fmt_range a (p_format q)) in R. destruct (attr_of_range (p_format q) a) as (_ & _ & _ & _ & IC & _).
    destruct (set_get_frame q (pattr a) x b w sg W IC R VF) as (q' & SE & W' & HH & LL & GE & FR & _). rewrite pnum_set_api, SE in X. cbn [obind tried] in X. apply pair_ok in X as (<- & <-).
    exists q'. assert (Q : mkPoint (p_data q') (p_hdr q) = q') by (rewrite <- HH; now destruct q'). split; [rewrite (point_at_put _ _ _ _ _ _ E), Q; reflexivity|].
    assert (KE : kept (fun b => negb (overlapping (pattr a) b)) q q') by (intros b0 B0; apply FR; now apply negb_true_iff).
    destruct (overlap_time a) as (OT & O1 & O2 & O3). split; [|split].
    + intros g G D. destruct g; cbn [asks of_v of_h of_p] in G; try contradiction; try (destruct h; contradiction); try (destruct v; contradiction); cbn [disturbs] in D; cbn [pget].
      * rewrite (kept_num _ _ _ KE); [reflexivity|]. assert (D' : overlapping (pattr a) (pattr a0) = false) by (destruct a; exact D). now rewrite D'.
      * rewrite (kept_real _ _ _ HH KE); [reflexivity|]. destruct a as [[]| | | | | | | | | |], a0; try discriminate D; reflexivity.
      * rewrite (kept_time _ _ _ W W' HH KE); [reflexivity|]. now rewrite OT.
      * rewrite (kept_color _ _ _ W W' HH KE); rewrite ?O1, ?O2, ?O3; reflexivity.
      * destruct a; discriminate D.
    + intros g v ST. inversion ST; subst. cbn [pget]. rewrite pnum_get_api, GE. reflexivity.
    + intros; discriminate.
  - destruct CF as [->|(q0 & L0 & SC & OF & ST)]; [now elim NP|]. apply DET in L0. subst q0.
    destruct (C06_quantisation q _ x W SC OF ST) as (q' & y & SE & W' & HH & LL & GE & FN & BD & FR & _).
    assert (XE : preal_set a q x = Ok q') by (destruct a; exact SE). rewrite XE in X. cbn [obind tried] in X. apply pair_ok in X as (<- & <-).
    exists q'. assert (Q : mkPoint (p_data q') (p_hdr q) = q') by (rewrite <- HH; now destruct q'). split; [rewrite (point_at_put _ _ _ _ _ _ E), Q; reflexivity|].
    assert (KE : kept (fun b => if attr_eq_dec b (pattr (PRaw a)) then false else true) q q').
    { intros b0 B0. apply FR. destruct (attr_eq_dec b0 (pattr (PRaw a))) as [e|e]; [discriminate|]. destruct a; exact e. }
    split; [|split].
    + intros g G D. destruct g; cbn [asks of_v of_h of_p] in G; try contradiction; try (destruct h; contradiction); try (destruct v; contradiction); cbn [disturbs] in D; cbn [pget].
      * rewrite (kept_num _ _ _ KE); [reflexivity|]. destruct a, a0 as [[]| | | | | | | | | |]; try discriminate D; reflexivity.
      * rewrite (kept_real _ _ _ HH KE); [reflexivity|]. destruct a, a0; try discriminate D; reflexivity.
      * rewrite (kept_time _ _ _ W W' HH KE); [reflexivity|]. now destruct a.
      * rewrite (kept_color _ _ _ W W' HH KE); now destruct a.
      * discriminate D.
    + intros g v Y. inversion Y.
    + intros a' p' v' Y. injection Y as <- <- <-. exists y. split; [destruct a; exact GE|]. split; [exact FN|]. destruct a; exact BD.
  - destruct (attr_range (p_format q) ATime) as [[[b w] sg]|] eqn:R.
    + pose proof W as (Hf & _).
      assert (Hws : w = 64 /\ sg = false).
      { destruct (format_cases _ Hf) as [Z|[Z|[Z|Z]]]; rewrite Z in R; cbn in R; try discriminate; injection R as <- <- <-; auto. }
      destruct Hws as [-> ->].
      destruct (set_get_frame q ATime (f64_bits t0) b 64 false W eq_refl R) as (q' & SE & W' & HH & LL & GE & FR & _).
      { cbn [value_fits]. apply f64_bits_range. }
      cbn [api_set] in SE. rewrite f64_of_bits_bits in SE. rewrite SE in X. cbn [obind tried] in X. apply pair_ok in X as (<- & <-).
      exists q'. assert (Q : mkPoint (p_data q') (p_hdr q) = q') by (rewrite <- HH; now destruct q'). split; [rewrite (point_at_put _ _ _ _ _ _ E), Q; reflexivity|].
      assert (KE : kept (fun b => negb (overlapping ATime b)) q q') by (intros b0 B0; apply FR; now apply negb_true_iff).
      split; [|split].
      * intros g G D. destruct g; cbn [asks of_v of_h of_p] in G; try contradiction; try (destruct h; contradiction); try (destruct v; contradiction); cbn [disturbs] in D; cbn [pget]; try discriminate D.
        -- rewrite (kept_num _ _ _ KE); [reflexivity|]. now destruct a as [[]| | | | | | | | | |].
        -- rewrite (kept_real _ _ _ HH KE); [reflexivity|]. now destruct a.
        -- rewrite (kept_color _ _ _ W W' HH KE); reflexivity.
      * intros g v Y. inversion Y; subst. cbn [pget]. cbn [api_get] in GE. destruct (get_time_ok q' W') as (t1 & T1). rewrite T1 in GE |- *. cbn in GE. apply Ok_inj in GE. cbn [obind].
        rewrite <- (f64_of_bits_bits t1), GE, f64_of_bits_bits. reflexivity.
      * intros; discriminate.
    + destruct (time_absent q W R) as (Z & Z'). rewrite Z in X. cbn [is_runtime] in X. apply pair_ok in X as (<- & <-). exists q. split; [exact E|]. split; [reflexivity|]. split; [|intros; discriminate].
      intros g v Y. inversion Y as [| | | | | | |p1 q1 t1 L1 F1| |]; subst. apply DET in L1. subst q1. cbn in R. destruct F1 as [F1|F1]; rewrite F1 in R; discriminate.
  - destruct CF as [->|(_ & C1 & C2 & C3)]; [now elim NP|]. destruct (attr_range (p_format q) ARed) as [z|] eqn:R.
    + destruct (set_color_frame q (c_red c) (c_green c) (c_blue c) W ltac:(congruence) C1 C2 C3) as (q' & SE & W' & HH & LL & GE & FR & _).
      assert (CE : mkColor (c_red c) (c_green c) (c_blue c) = c) by now destruct c. rewrite CE in *. rewrite SE in X. cbn [obind tried] in X. apply pair_ok in X as (<- & <-).
      exists q'. assert (Q : mkPoint (p_data q') (p_hdr q) = q') by (rewrite <- HH; now destruct q'). split; [rewrite (point_at_put _ _ _ _ _ _ E), Q; reflexivity|].
      assert (KE : kept (fun b => negb (is_color b)) q q') by (intros b0 B0; apply FR; now apply negb_true_iff).
      split; [|split].
      * intros g G D. destruct g; cbn [asks of_v of_h of_p] in G; try contradiction; try (destruct h; contradiction); try (destruct v; contradiction); cbn [disturbs] in D; cbn [pget]; try discriminate D.
        -- rewrite (kept_num _ _ _ KE); [reflexivity|]. now destruct a as [[]| | | | | | | | | |].
        -- rewrite (kept_real _ _ _ HH KE); [reflexivity|]. now destruct a.
        -- rewrite (kept_time _ _ _ W W' HH KE); reflexivity.
      * intros g v Y. inversion Y; subst. cbn [pget]. rewrite GE. reflexivity.
      * intros; discriminate.
    + destruct (color_absent q W R) as (Z & Z'). rewrite Z in X. cbn [is_runtime] in X. apply pair_ok in X as (<- & <-). exists q. split; [exact E|]. split; [reflexivity|]. split; [|intros; discriminate].
      intros g v Y. inversion Y as [| | | | | | | |p1 q1 t1 L1 F1|]; subst. apply DET in L1. subst q1. cbn in R. destruct F1 as [F1|F1]; rewrite F1 in R; discriminate.
  - destruct CF as [->|(q0 & L0 & B & RL)]; [now elim NP|]. apply DET in L0. subst q0.
    replace (length (p_data q) =? Z.to_nat (get_record_length (p_hdr q)))%nat with true in X by (symmetry; apply Nat.eqb_eq; lia).
    replace (length (p_data q) <? Z.to_nat (get_record_length (p_hdr q)))%nat with false in X by (symmetry; apply Nat.ltb_ge; lia).
    replace (length d <? Z.to_nat (get_record_length (p_hdr q)))%nat with false in X by (symmetry; apply Nat.ltb_ge; lia). cbn [orb] in X. apply pair_ok in X as (<- & <-).
    eexists. split; [rewrite (point_at_put _ _ _ _ _ _ E); reflexivity|]. split; [intros g G D; discriminate D|]. split; [|intros; discriminate].
    intros g v Y. inversion Y as [| | | | | | | | |p1 q1 d1 room L1 F1]; subst. apply DET in L1. subst q1. cbn [pget p_hdr p_data].
    rewrite skipn_all2 by lia. rewrite app_nil_r, firstn_firstn, Nat.min_id.
    rewrite (proj2 (Nat.ltb_ge _ _)); [|rewrite firstn_length; lia]. rewrite (proj2 (Nat.ltb_ge _ _)) by lia. reflexivity.
Qed.
Lemma c_string_self l t : Hdr_Spec.c_string_of (until_nul l) t -> t = until_nul l.
Proof. intros (N & [E|(r & E)]); [now symmetry|]. elim (until_nul_no_nul l). rewrite E. apply in_or_app. right. now left. Qed.
Lemma calc_format s : s_format (calculate_sizes s) = s_format s.
Proof. reflexivity. Qed.
Lemma hnum_set_get a x v : fits_hnum a v -> snd (hnum_set a x v) = Ok tt -> hnum_get a (fst (hnum_set a x v)) = v.
Proof.
  intros F S. destruct a; cbn [hnum_set fst snd fits_hnum] in *; unfold in_unsigned in F;
    try (cbn [hnum_get]; unfold set_source_id, set_reserved, set_creation_doy, set_creation_year, set_data_offset, set_header_padding, set_point_count;
      cbn [h_upd_srcid h_upd_reserved h_upd_doy h_upd_year h_upd_doff h_upd_pad h_upd_npts h_srcid h_reserved h_doy h_year h_doff h_pad h_npts]; apply Z.mod_small; lia).
  - unfold set_version_major in *. destruct (_ || _); [discriminate|reflexivity].
  - unfold set_version_minor in *. destruct (_ <? _); [discriminate|reflexivity].
  - unfold set_header_format, set_format in *. destruct (update_required (h_schema x) v) as (s1, [u|e|u]); cbn [fst snd] in *; try discriminate.
    cbn [hnum_get]. unfold get_format. cbn [h_upd_schema h_schema]. rewrite calc_format. cbn [s_format]. apply Z.mod_small. lia.
Qed.
Lemma set_get s c g v t : sound dh xml s -> careful dh xml s c -> stores dh s c g v -> cstep dh xml doy year s c = Ok (t, Num 0) -> cstep dh xml doy year t g = Ok (t, v).
Proof.
  intros H CF ST X. assert (S : is_set c = true) by (destruct ST; reflexivity). assert (AM : asks g = may_change c) by (destruct ST; reflexivity).
  assert (PTS : is_pt (may_change c) -> cstep dh xml doy year t g = Ok (t, v)).
  { intros IP. assert (FT : fits c) by (destruct ST; cbn; auto).
    assert (LV : exists q, live_pt dh s (pp (may_change c)) q).
    { destruct ST; cbn [may_change of_v of_h of_p] in *; try (destruct h; contradiction); try (destruct v; contradiction); destruct p; try contradiction; cbn [of_p pp]; cbn [careful] in CF.
      all: destruct CF as [CF|CF]; [discriminate|]; try exact CF; try (destruct CF as (q0 & L0 & _); eauto); try (destruct CF as ((q0 & L0) & _); eauto). }
    destruct LV as (q & L). destruct (live_at dh xml Hdh s _ q H L) as ((r0 & E & _) & _).
    destruct (pset_ok s c q r0 t (Num 0) H CF S FT IP L E X) as (q' & E' & _ & SG & _). rewrite <- AM in IP, E'. rewrite (pget_ok dh xml doy year t g q' r0 IP E'). rewrite (SG g v ST). reflexivity. }
  destruct ST; cbn [may_change of_v of_h of_p] in *.
  - destruct v as [|n]; [discriminate|]. destruct CF as [CF|(y & m & M & E)]; [discriminate|]. injection M as <-.
    destruct (vset_ok dh xml doy year s _ n y t _ S eq_refl E X) as (E' & _). rewrite (vget_ok dh xml doy year t _ n _ AM E'). cbn [vget vset obind].
    unfold in_unsigned in *. destruct a; cbn; rewrite Z.mod_small by (cbn; lia); reflexivity.
  - destruct v as [|n]; [discriminate|]. destruct CF as [CF|((y & m & M & E) & l' & Q & B)]; [discriminate|]. injection M as <-. injection Q as <-.
    destruct (vset_ok dh xml doy year s _ n y t _ S eq_refl E X) as (E' & TX). rewrite (vget_ok dh xml doy year t _ n _ AM E'). cbn [vget vset].
    destruct (TX eq_refl _ _ _ eq_refl) as (z & Z). rewrite Z. cbn [obind]. f_equal. f_equal. f_equal. f_equal. assert (W : vlr_wf y) by (destruct H as (_ & V & _); eauto).
    destruct a; cbn [vtext_set vtext_get] in *.
    + pose proof (vlr_set_user_spec y _ W (bytes_until_nul l B)) as Y. destruct (_ <=? _)%nat; [|congruence]. destruct Y as (v' & Y & _ & Y1 & Y2 & _). rewrite Z in Y. apply Ok_inj in Y. subst v'.
      rewrite Y2, until_nul_pad, (c_string_self _ _ Y1). apply until_nul_id. apply until_nul_no_nul.
    + pose proof (vlr_set_desc_spec y _ W (bytes_until_nul l B)) as Y. destruct (_ <=? _)%nat; [|congruence]. destruct Y as (v' & Y & _ & Y1 & Y2 & _). rewrite Z in Y. apply Ok_inj in Y. subst v'.
      rewrite Y2, until_nul_pad, (c_string_self _ _ Y1). apply until_nul_id. apply until_nul_no_nul.
  - destruct CF as (_ & n & y & -> & (m & M & E) & _). injection M as <-.
    destruct (hset_ok dh xml doy year s _ n y t _ S eq_refl E X) as (E' & TX). rewrite (hget_ok dh xml doy year t _ n _ AM E'). cbn [hget hset obind].
    destruct (TX eq_refl) as (_ & T2 & _). specialize (T2 _ _ _ eq_refl). rewrite hnum_set_get; [reflexivity|assumption|exact T2].
  - destruct CF as ((y & n & -> & E) & l' & Q & B). injection Q as <-.
    destruct (hset_ok dh xml doy year s _ n y t _ S eq_refl E X) as (E' & TX). rewrite (hget_ok dh xml doy year t _ n _ AM E'). cbn [hget hset].
    destruct (TX eq_refl) as (T1 & _). destruct (T1 _ _ _ eq_refl) as (z & Z). rewrite Z. cbn [obind]. f_equal. f_equal. f_equal. f_equal.
    assert (HT : htext_set a y (until_nul l) = if (32 <? length (until_nul l))%nat then Throw EInvalidArgument else Ok (match a with HSystemId => h_upd_sysid y (strncpy 32 (until_nul l)) | HSoftwareId => h_upd_swid y (strncpy 32 (until_nul l)) end)) by (destruct a; reflexivity).
    rewrite HT in Z. destruct (Nat.ltb_spec 32 (length (until_nul l))) as [K|K]; [discriminate|]. apply Ok_inj in Z. subst z.
    assert (G : until_nul (until_nul (strncpy 32 (until_nul l))) = until_nul l).
    { rewrite until_nul_strncpy. rewrite (until_nul_id (until_nul l)) by apply until_nul_no_nul. rewrite firstn_all2 by lia. apply until_nul_id, until_nul_no_nul. }
    destruct a; exact G.
  - destruct CF as (w & n & -> & E). destruct (hset_ok dh xml doy year s _ n w t _ S eq_refl E X) as (E' & TX). rewrite (hget_ok dh xml doy year t _ n _ AM E'). cbn [hget hset obind]. destruct a, i; reflexivity.
  - destruct CF as (_ & w & n & -> & E). destruct (hset_ok dh xml doy year s _ n w t _ S eq_refl E X) as (E' & TX). rewrite (hget_ok dh xml doy year t _ n _ AM E'). cbn [hget hset].
    destruct (TX eq_refl) as (_ & _ & T3). destruct (T3 _ _ _ eq_refl) as (z & Z). unfold set_by_return in Z |- *. rewrite Z.mod_small in * by lia. destruct (_ && _) eqn:B; [|discriminate]. apply Ok_inj in Z. subst z.
    rewrite (proj2 (Z.ltb_lt i 5)) by lia. rewrite (proj2 (Z.leb_le 0 i)) by lia. cbn [andb h_upd_byret h_byret]. apply andb_true_iff in B as (B1 & B2). apply Z.ltb_lt in B2.
    unfold deref. rewrite list_set_length, B1. rewrite (proj2 (Z.ltb_lt i _)) by exact B2. cbn [andb].
    destruct (nth_error (h_byret w) (Z.to_nat i)) eqn:N; [|apply nth_error_None in N; lia]. rewrite (set_same _ _ _ _ N). cbn [obind]. unfold in_unsigned in *. rewrite Z.mod_small by lia. reflexivity.
  - apply PTS. now destruct p.
  - apply PTS. now destruct p.
  - apply PTS. now destruct p.
  - apply PTS. now destruct p.
Qed.
Lemma set_frame s c g t r a : sound dh xml s -> careful dh xml s c -> fits c -> returns_status c = true -> asks g = may_change c -> asks g <> ONone -> disturbs c g = false ->
  cstep dh xml doy year s c = Ok (t, r) -> cstep dh xml doy year s g = Ok (s, a) -> cstep dh xml doy year t g = Ok (t, a).
Proof.
  intros H CF FT S AM NN D X Y.
  destruct (may_change c) as [n|n|n|n|] eqn:M; [| | | |congruence].
  - assert (LV : exists y, nth_error (c_hdrs s) n = Some (Some (Some y))).
    { destruct c; cbn [may_change of_h of_v of_p] in M; try discriminate S; try (destruct v; discriminate M); try (destruct p; discriminate M); destruct h as [|k]; try discriminate M; injection M as ->; cbn [careful] in CF.
      - destruct CF as (_ & m & y & Q & (k & K & E) & _). injection K as <-. eauto.
      - destruct CF as ((y & k & K & E) & _). injection K as <-. eauto.
      - destruct CF as (w & k & K & E). injection K as <-. eauto.
      - destruct CF as (_ & w & k & K & E). injection K as <-. eauto.
      - destruct CF as (_ & w & k & K & E). injection K as <-. eauto.
      - destruct CF as ((w & k & K & E) & _). injection K as <-. eauto. }
    destruct LV as (y & E). destruct (hset_ok dh xml doy year s c n y t r S M E X) as (E' & _).
    rewrite (hget_ok dh xml doy year t g n _ AM E'), (hframe (c_vlrs s) c g y n n S M AM); [| |exact D].
    + rewrite (hget_ok dh xml doy year s g n _ AM E) in Y. apply bind_ok in Y as (a' & -> & Y). apply pair_ok in Y as (_ & <-). reflexivity.
    + intros h i v ->. apply CF.
  - assert (LV : exists q, live_pt dh s (pp (may_change c)) q).
    { rewrite M. destruct c; cbn [may_change of_h of_v of_p] in M; try discriminate S; try (destruct v; discriminate M); try (destruct h; discriminate M); destruct p as [|k|k]; try discriminate M; injection M as ->; cbn [careful] in CF; cbn [pp].
      all: destruct CF as [CF|CF]; [discriminate|]; try exact CF; try (destruct CF as (q0 & L0 & _); eauto); try (destruct CF as ((q0 & L0) & _); eauto). }
    destruct LV as (q & L). destruct (live_at dh xml Hdh s _ q H L) as ((r0 & E & _) & _).
    destruct (pset_ok s c q r0 t r H CF S FT ltac:(rewrite M; exact I) L E X) as (q' & E' & FR & _). rewrite M in E, E'. rewrite <- AM in E, E'.
    rewrite (pget_ok dh xml doy year t g q' r0 ltac:(rewrite AM; exact I) E'), FR; [|rewrite AM; exact I|exact D].
    rewrite (pget_ok dh xml doy year s g q r0 ltac:(rewrite AM; exact I) E) in Y. apply bind_ok in Y as (a' & -> & Y). apply pair_ok in Y as (_ & <-). reflexivity.
  - assert (LV : exists y, nth_error (c_vlrs s) n = Some (Some y)).
    { destruct c; cbn [may_change of_h of_v of_p] in M; try discriminate S; try (destruct h; discriminate M); try (destruct p; discriminate M); destruct v as [|k]; try discriminate M; injection M as ->; cbn [careful] in CF.
      - destruct CF as [CF|(w & k & K & E)]; [discriminate|]. injection K as <-. eauto.
      - destruct CF as [CF|((w & k & K & E) & _)]; [discriminate|]. injection K as <-. eauto.
      - destruct CF as [CF|((w & k & K & E) & _)]; [discriminate|]. injection K as <-. eauto. }
    destruct LV as (y & E). destruct (vset_ok dh xml doy year s c n y t r S M E X) as (E' & _).
    rewrite (vget_ok dh xml doy year t g n _ AM E'), (vframe c g y n n S M AM); [| | |exact D].
    + rewrite (vget_ok dh xml doy year s g n _ AM E) in Y. apply bind_ok in Y as (a' & -> & Y). apply pair_ok in Y as (_ & <-). reflexivity.
    + destruct H as (_ & V & _). eauto.
    + intros b v l ->. destruct CF as [->|(_ & l' & Q & B)]; [discriminate|]. congruence.
  - assert (LV : exists q, live_pt dh s (pp (may_change c)) q).
    { rewrite M. destruct c; cbn [may_change of_h of_v of_p] in M; try discriminate S; try (destruct v; discriminate M); try (destruct h; discriminate M); destruct p as [|k|k]; try discriminate M; injection M as ->; cbn [careful] in CF; cbn [pp].
      all: destruct CF as [CF|CF]; [discriminate|]; try exact CF; try (destruct CF as (q0 & L0 & _); eauto); try (destruct CF as ((q0 & L0) & _); eauto). }
    destruct LV as (q & L). destruct (live_at dh xml Hdh s _ q H L) as ((r0 & E & _) & _).
    destruct (pset_ok s c q r0 t r H CF S FT ltac:(rewrite M; exact I) L E X) as (q' & E' & FR & _). rewrite M in E, E'. rewrite <- AM in E, E'.
    rewrite (pget_ok dh xml doy year t g q' r0 ltac:(rewrite AM; exact I) E'), FR; [|rewrite AM; exact I|exact D].
    rewrite (pget_ok dh xml doy year s g q r0 ltac:(rewrite AM; exact I) E) in Y. apply bind_ok in Y as (a' & -> & Y). apply pair_ok in Y as (_ & <-). reflexivity.
Qed.
Lemma set_coord_c s a p v q t : sound dh xml s -> careful dh xml s (PtSetR a p v) -> live_pt dh s p q -> cstep dh xml doy year s (PtSetR a p v) = Ok (t, Num 0) ->
  exists x, cstep dh xml doy year t (PtGetR a p) = Ok (t, Real x) /\ f64_fin x = true /\
    (Rbasic_fun.Rabs (f64_R x - f64_R v) <= Rbasic_fun.Rabs (f64_R (axis_of a (h_scale (p_hdr q)))) * (/ 2 + / 131072) + / 9007199254740992 * Rbasic_fun.Rabs (f64_R (axis_of a (h_offset (p_hdr q)))))%R.
Proof.
  intros H CF L X. assert (NP : p <> PNull) by (intros ->; exact L). assert (IP : is_pt (may_change (PtSetR a p v))) by (cbn; now destruct p).
  assert (PPE : pp (may_change (PtSetR a p v)) = p) by (cbn; now apply of_pp).
  destruct (live_at dh xml Hdh s _ q H L) as ((r0 & E & _) & _).
  destruct (pset_ok s _ q r0 t (Num 0) H CF eq_refl I IP ltac:(rewrite PPE; exact L) ltac:(rewrite PPE; exact E) X) as (q' & E' & _ & _ & CO).
  destruct (CO _ _ _ eq_refl) as (x & G & B). exists x. split; [|exact B]. rewrite (pget_ok dh xml doy year t (PtGetR a p) q' r0); [cbn [pget]; rewrite G; reflexivity|exact IP|exact E'].
Qed.
End store.

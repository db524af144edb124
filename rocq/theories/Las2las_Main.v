(** las2las: one output file. *)
From Coq Require Import ZArith List Bool Lia String.
From Coq Require Import ZifyBool ZifyNat.
Import ListNotations.
From Verif Require Import Outcome Bytes Float64 Float64_Proofs CStr Vlr_Model Schema_Model Schema_Spec Header_Model Point_Model Point_Spec Point_Api Point_Proofs Point_Hist
  Coord_Api Coord_Proofs Coord_Header Stream_Model Stream_Proofs IO_Spec Reader_Proofs Reader_Vlrs Reader_Model Reader_Spec Reader_Schema Reader_Api Reader_Open Reader_Hist Reader_Filter
  Writer_Model Writer_Api Writer_Proofs Rewrite_Proofs Prop_Reader Iter_Spec Iter_Model Iter_Proofs Prop_Rewrite
  Summary_Model Summary_Spec Summary_Proofs Prop_Summary Text_Model Text_Proofs
  Las2las_Spec Las2las_Copy Las2las_Model Las2las_Summary Las2las_File Las2las_Loop Las2las_Points.
Local Open Scope Z_scope.
Local Notation length := List.length (only parsing).

(** records of the right size *)
Definition recs_ok (F : list Z) (ds : list (list Z)) : Prop :=
  Forall (fun d => bytes_ok d /\ Z.of_nat (length d) = f_reclen F) ds /\ Z.of_nat (length ds) < 2 ^ 32.

Lemma number_le {V} (f : V -> bool) l : 0 <= number_of f l <= Z.of_nat (length l).
Proof. unfold number_of. split; [lia|]. induction l as [|x l IH]; cbn [filter List.length]; [lia|]. destruct (f x); cbn [List.length]; lia. Qed.
Lemma number_zero k l : number_of (Z.eqb k) l = 0 <-> ~ In k l.
Proof.
  unfold number_of. induction l as [|x l IH]; cbn [filter List.length In]; [tauto|]. destruct (Z.eqb_spec k x) as [->|N]; cbn [List.length]; split; intros; [lia|tauto| |].
  - rewrite IH in H by lia. intros [E|E]; [congruence|tauto].
  - rewrite IH. tauto.
Qed.

Lemma five_ok h ps : Forall (of_header h) ps -> Z.of_nat (length ps) < 2 ^ 32 ->
  exists rns, values_of get_return_number ps rns /\ firstn 5 (return_counts ps) = five_returns rns.
Proof.
  intros F L. exists (vw AReturnNumber ps). split.
  - apply values_map. eapply Forall_impl; [|exact F]. intros p (W & _). exact (vw_get p AReturnNumber W ltac:(discriminate)).
  - assert (RG : forall v, In v (vw AReturnNumber ps) -> 0 <= v < 8).
    { intros v Hv. unfold vw in Hv. apply in_map_iff in Hv. destruct Hv as (p & <- & Hp). rewrite Forall_forall in F. apply small_field; [apply F; exact Hp|cbn; auto]. }
    unfold return_counts, five_returns. cbv beta zeta.
    assert (LV : length (vw AReturnNumber ps) = length ps) by apply map_length. rewrite LV.
    set (rns := vw AReturnNumber ps) in *. 
    assert (S : forall k, number_of (Z.eqb k) rns mod 2 ^ 32 = number_of (Z.eqb k) rns) by (intros k; pose proof (number_le (Z.eqb k) rns); apply Z.mod_small; lia).
    rewrite !S. cbn [forallb map].
    rewrite (Z.mod_small (Z.of_nat (length ps))) by lia.
    assert (EQ : (0 =? number_of (Z.eqb 1) rns) && ((0 =? number_of (Z.eqb 2) rns) && ((0 =? number_of (Z.eqb 3) rns) && ((0 =? number_of (Z.eqb 4) rns) &&
      ((0 =? number_of (Z.eqb 5) rns) && ((0 =? number_of (Z.eqb 6) rns) && ((0 =? number_of (Z.eqb 7) rns) && true)))))) = forallb (Z.eqb 0) rns).
    { apply eq_true_iff_eq. rewrite !andb_true_iff, !Z.eqb_eq, forallb_forall. split.
      - intros (N1 & N2 & N3 & N4 & N5 & N6 & N7 & _) v Hv. pose proof (RG v Hv). symmetry in N1, N2, N3, N4, N5, N6, N7.
        apply number_zero in N1, N2, N3, N4, N5, N6, N7.
        destruct (Z.eqb_spec 0 v); [reflexivity|]. exfalso.
        assert (v = 1 \/ v = 2 \/ v = 3 \/ v = 4 \/ v = 5 \/ v = 6 \/ v = 7) as K by lia.
        destruct K as [K|[K|[K|[K|[K|[K|K]]]]]]; rewrite K in Hv; contradiction.
      - intros A. assert (K : forall k, k <> 0 -> 0 = number_of (Z.eqb k) rns).
        { intros k Hk. symmetry. apply number_zero. intros Hin. specialize (A k Hin). lia. }
        repeat split; apply K; lia. }
    rewrite EQ. destruct (forallb (Z.eqb 0) rns); reflexivity.
Qed.

Lemma points_header F h ds : plain_file F -> shows_file F h -> recs_ok F ds -> Forall (of_header h) (points_of h ds).
Proof.
  intros HP Sh (D & _). unfold points_of. apply Forall_map. eapply Forall_impl; [|exact D]. intros d (B & L). now apply (file_point F).
Qed.
Lemma points_copyable F h ds : complete F -> recs_ok F ds -> Forall (copyable F) (points_of h ds).
Proof.
  intros HC (D & _). unfold points_of. apply Forall_map. eapply Forall_impl; [|exact D]. intros d (B & L). split; [|exact B].
  split; cbn [p_data]; [lia|]. destruct HC as (C & _). intros ->. cbn [List.length] in L. lia.
Qed.
Lemma points_len h ds : length (points_of h ds) = length ds.
Proof. apply map_length. Qed.

Lemma header_sane F h : las_file F -> sane_scaling F -> shows_file F h -> sane_header h.
Proof.
  intros HF S (P & _) ax.
  pose proof (f_equal ph_scale P) as PS. pose proof (f_equal ph_offset P) as PO. cbn [ph_scale ph_offset pub_of_file pub_of_header] in PS, PO.
  destruct (h_scale h) as [[sx sy] sz] eqn:ES. destruct (h_offset h) as [[ox oy] oz] eqn:EO. unfold bits3 in PS, PO. cbn [x_of y_of z_of fst snd] in PS, PO.
  injection PS as P1 P2 P3. injection PO as Q1 Q2 Q3.
  assert (B : forall x b, f64_bits x = b -> x = f64_of_bits b) by (intros x b <-; symmetry; apply f64_of_bits_bits).
  apply B in P1, P2, P3, Q1, Q2, Q3. unfold Coord_Api.scale_of, Coord_Api.offset_of, Coord_Api.axis_of. rewrite ES, EO. cbn [fst snd].
  destruct ax; [specialize (S 0%nat ltac:(lia))|specialize (S 1%nat ltac:(lia))|specialize (S 2%nat ltac:(lia))]; cbn [Nat.add Nat.mul] in S;
    [rewrite P1, Q1|rewrite P2, Q2|rewrite P3, Q3]; exact S.
Qed.

(** a file of copied records *)
Lemma seq_records (f : Z -> list Z) ds : (forall k d, nth_error ds k = Some d -> f (Z.of_nat k) = d) -> map (fun i => f (0 + Z.of_nat i)) (seq 0 (length ds)) = ds.
Proof.
  intros R. assert (K : forall ds' s, (forall k d, nth_error ds' k = Some d -> f (Z.of_nat (s + k)) = d) -> map (fun i => f (0 + Z.of_nat i)) (seq s (length ds')) = ds').
  { induction ds' as [|d ds' IH]; intros s H; cbn [List.length seq map]; [reflexivity|]. f_equal.
    - rewrite Z.add_0_l. specialize (H 0%nat d eq_refl). now rewrite Nat.add_0_r in H.
    - apply IH. intros k x Hx. specialize (H (S k) x Hx). now rewrite Nat.add_succ_r in H. }
  apply K. exact R.
Qed.
Lemma recs_of_copy F h ds G : recs_ok F ds -> f_npts G = Z.of_nat (length ds) ->
  (forall k p, nth_error (points_of h ds) k = Some p -> file_record G (Z.of_nat k) = record_of (f_reclen F) p) -> records_from G 0 = ds.
Proof.
  intros (D & HL) N R. unfold records_from. rewrite N, Z.sub_0_r, Nat2Z.id. apply seq_records.
  intros k d Hk. assert (NP : nth_error (points_of h ds) k = Some (mkPoint d h)) by (unfold points_of; now rewrite (map_nth_error _ _ _ Hk)).
  rewrite (R _ _ NP). unfold record_of. cbn [p_data]. apply firstn_all2. rewrite Forall_forall in D. destruct (D d) as (_ & L); [now apply nth_error_In in Hk|]. lia.
Qed.

Lemma copy_pub_once F n : copy_pub F n = once F (copied F n).
Proof. unfold copy_pub, once, copied. destruct (u_at F 25 1 =? 0); reflexivity. Qed.
Lemma stored_once F p : ph_vmin p = u_at F 25 1 -> stored (once F p) = twice F p.
Proof.
  intros V. unfold once, twice, stored. rewrite <- V. destruct (ph_vmin p =? 0) eqn:Z0; cbn [ph_vmin with_source]; rewrite Z0; reflexivity.
Qed.

(** a file written with the header and some of the records, before and after the repair *)
Lemma part_ok t F : standard F -> gap F <= 2 -> u_at F 25 1 <> 0 \/ gap F <> 1 -> sane_scaling F -> t_text t = text16 ->
  exists r, reader_open (t_xml t) (t_doy t) (t_year t) F = Ok r /\ shows_file F (r_hdr r) /\
  forall ds, recs_ok F ds -> exists G, write_file (t_sv t) (r_hdr r) (points_of (r_hdr r) ds) = Ok G /\ unfinished F ds G /\
    exists q G', cs_feed cs_new (points_of (r_hdr r) ds) = Ok q /\ repair_file t q G = Ok G' /\ finished F (r_hdr r) ds G'.
Proof.
  intros HS HG Hv SS TT. destruct (copy_main (t_sv t) (t_xml t) (t_doy t) (t_year t) F HS HG Hv) as (r & E & W).
  pose proof HS as (HA & HP). destruct (plain_header (t_xml t) (t_doy t) (t_year t) F HP) as (r' & E' & Hsh & _). rewrite E in E'. apply Writer_Append.Ok_inj in E'. subst r'.
  pose proof HA as (HF & _ & _ & HC).
  exists r. split; [exact E|]. split; [exact Hsh|]. intros ds HD. set (h := r_hdr r) in *. set (ps := points_of h ds) in *.
  assert (LP : length ps = length ds) by apply points_len.
  destruct (W ps (points_copyable F h ds HC HD)) as (G & EW & P & GU & V & ST & GA & RC); [rewrite LP; apply HD|]. rewrite LP in P.
  exists G. split; [exact EW|].
  assert (NG : f_npts G = Z.of_nat (length ds)) by exact (f_equal ph_npts P).
  assert (RG : records_from G 0 = ds) by exact (recs_of_copy F h ds G HD NG RC).
  assert (P2 : pub_of_file G = once F (copied F (Z.of_nat (length ds)))) by now rewrite P, copy_pub_once.
  split; [split; [split; [exact ST|split; [exact RG|exact V]]|split; [exact GU|exact P2]]|].
  pose proof (points_header F h ds HP Hsh HD) as FO. fold ps in FO.
  destruct (cinv_feed h ps cs_new [] (cinv_new h) FO) as (q & EQ & IQ). cbn [app] in IQ. exists q.
  assert (LF : length (slice F 8 16) = 16%nat).
  { unfold slice. rewrite firstn_length, skipn_length. destruct HF as (_ & HL & _). lia. }
  assert (GS : forall G', slice G' 8 16 = guid_swap (slice G 8 16) -> slice G' 8 16 = slice F 8 16) by (intros G' ->; rewrite GU; now apply guid_swap_swap).
  assert (HN0 : 0 <= f_npts G) by lia.
  assert (CD : ds = [] \/ ds <> []) by (destruct ds; [left; reflexivity|right; discriminate]). destruct CD as [D0|Dne].
  - destruct (repair_empty t q G ST) as (G' & ER & PR & GR & VR & SR & GaR & LR); [rewrite NG, D0; reflexivity|].
    exists G'. split; [exact EQ|]. split; [exact ER|]. split; [split; [exact SR|split; [|now rewrite VR]]|split; [now apply GS|split]].
    + assert (N' : f_npts G' = 0).
      { pose proof (f_equal ph_npts PR) as X. unfold stored in X. destruct (_ =? _) in X; cbn [ph_npts pub_of_file with_source] in X; rewrite D0 in NG; exact (eq_trans X NG). }
      unfold records_from. rewrite N', D0. reflexivity.
    + intros _. rewrite PR, P2, D0. apply stored_once. reflexivity.
    + intros X. contradiction.
  - destruct (q_mm q) as [[mn mx]|] eqn:EM.
    2:{ exfalso. destruct IQ as (_ & _ & _ & M). rewrite EM in M. apply (f_equal (@List.length _)) in M. rewrite LP in M. apply length_zero_iff_nil in M. contradiction. }
    destruct (corners h q ps mn mx (header_sane F h HF SS Hsh) IQ FO EM) as (x0 & y0 & z0 & x1 & y1 & z1 & T0 & T1 & BO).
    rewrite <- TT in T0, T1.
    destruct (repair_points t h q ps G mn mx x0 y0 z0 x1 y1 z1 ST) as (G' & ER & PR & GR & VR & SR & GaR & LR & RR); auto.
    { rewrite NG. destruct ds; [contradiction|cbn [List.length]; lia]. }
    exists G'. split; [exact EQ|]. split; [exact ER|]. split; [split; [exact SR|split; [|now rewrite VR]]|split; [now apply GS|split; [intros X; contradiction|]]].
    + assert (N' : f_npts G' = f_npts G).
      { pose proof (f_equal ph_npts PR) as X. unfold stored in X. destruct (_ =? _) in X; exact X. }
      rewrite <- RG. unfold records_from. rewrite N'. apply map_ext. intros i. apply RR. lia.
    + intros _. destruct (five_ok h ps FO) as (rns & VR' & FR); [rewrite LP; apply HD|].
      exists (bits3 (x1, y1, z1)), (bits3 (x0, y0, z0)), rns. split; [exact BO|]. split; [exact VR'|].
      rewrite PR, FR, P2.
      transitivity (stored (once F (with_returns (with_bounds (copied F (Z.of_nat (length ds))) (bits3 (x1, y1, z1)) (bits3 (x0, y0, z0))) (five_returns rns)))).
      * f_equal. unfold once. destruct (u_at F 25 1 =? 0); reflexivity.
      * apply stored_once. reflexivity.
Qed.

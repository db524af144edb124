(** From the bounds of the file and the points to the answer of a query. *)
From Coq Require Import ZArith Reals List Bool Lia Lra.
From Coq Require Import ZifyBool ZifyNat.
From Flocq Require Import Core.
Import ListNotations.
From Verif Require Import Outcome Bytes CStr Float64 Float64_Proofs Vlr_Model Bounds_Model Bounds_Proofs Coord_Api Coord_Proofs Chipper_Spec Chipper_Lists Index_Cell Index_Temp Index_Scan Index_Out Index_Query Index_Spec Index_Items Index_Groups Index_Filter Index_Load Index_Axis Index_Build Index_Grid Index_QuerySpec Index_Size Index_Divide Index_Cells Index_Answer.
Local Open Scope Z_scope.
Local Notation length := List.length (only parsing).

Lemma wide_flat r : wide r -> flat r.
Proof. intros [A B C D E]. constructor; auto. lra. Qed.

Lemma verify_touches b r : touches b r -> verify_range b = true.
Proof. intros (A & B & C & _). now apply wide_verify. Qed.

Lemma key_halves g x y p : let s := to_signed 32 (key g x y p) in
  ((s =? 0) || (s =? 2) = negb (upper (rg_min (gr_x g)) (gr_sx g) x (c_x p))) /\ ((s =? 0) || (s =? 1) = negb (upper (rg_min (gr_y g)) (gr_sy g) y (c_y p))).
Proof. cbv zeta. unfold key, sub_number. destruct (upper _ _ _ _), (upper _ _ _ _); split; reflexivity. Qed.

Lemma nth_forall2 {A B} (R : A -> B -> Prop) l l' : Forall2 R l l' -> forall i d d', (i < length l)%nat -> R (nth i l d) (nth i l' d').
Proof. induction 1 as [|a b l l' H HF IH]; intros [|i] d d' Hi; cbn [List.length] in Hi; try lia; cbn [nth]; [exact H|]. apply IH. lia. Qed.

(** the column and row of a point *)
Lemma cell_of g pts ps i : grid_ok g -> Forall2 (right_cell g) pts ps -> 0 <= i < lenB pts ->
  exists kx ky, In i (ids_of (kx * gr_cy g + ky) ps) /\ (forall k, In i (ids_of k ps) -> k = kx * gr_cy g + ky) /\ 0 <= kx < gr_cx g /\ 0 <= ky < gr_cy g /\
    near (rg_min (gr_x g)) (rg_max (gr_x g)) (gr_cx g) kx (c_x (pt_at pts i)) /\ near (rg_min (gr_y g)) (rg_max (gr_y g)) (gr_cy g) ky (c_y (pt_at pts i)).
Proof.
  intros G HF Hi. destruct (nth_forall2 _ _ _ HF (Z.to_nat i) pt0 None ltac:(lia)) as (kx & ky & E & B1 & B2 & N1 & N2). exists kx, ky.
  assert (I : In i (ids_of (kx * gr_cy g + ky) ps)).
  { unfold ids_of. apply filter_In. split; [apply zseq_In; rewrite <- (Forall2_len _ _ _ HF); lia|]. rewrite E. unfold in_cell. lia. }
  split; [exact I|]. split; [|repeat (split; [assumption|]); assumption]. intros k H. exact (ids_unique pts ps [] (eq_sym (Forall2_len _ _ _ HF)) _ _ i H I).
Qed.

Section Query.
Variables (j : job) (g : grid) (pts : list coords) (bx by_ bz : range).
Hypothesis WX : wide (j_x j).
Hypothesis WY : wide (j_y j).
Hypothesis FZ : flat (j_z j).
Hypothesis TX : touches bx (j_x j).
Hypothesis TY : touches by_ (j_y j).
Hypothesis TZ : touches bz (j_z j).
Hypothesis GX : gr_x g = j_x j.
Hypothesis GY : gr_y g = j_y j.
Hypothesis GZ : gr_z g = j_z j.
Hypothesis GO : grid_ok g.

Let h := head_of j g.
Let cx := range_clip bx (j_x j).
Let cy := range_clip by_ (j_y j).
Let cz := range_clip bz (j_z j).

Lemma range_eta r : mkRange (rg_min r) (rg_max r) = r. Proof. now destruct r. Qed.
Lemma filter_values : set_filter_values h bx by_ bz = Some (mkQuery (axis_of cx (enabler cx false)) (axis_of cy (enabler cy false)) (axis_of cz (enabler cz false)), negb (enabler cx false && enabler cy false && enabler cz false)).
Proof.
  unfold set_filter_values. rewrite (verify_touches _ _ TX), (verify_touches _ _ TY), (verify_touches _ _ TZ). cbn [andb]. cbv zeta.
  unfold ih_range_x, ih_range_y, ih_range_z, h, head_of. cbn [ih_minx ih_maxx ih_miny ih_maxy ih_minz ih_maxz]. rewrite !range_eta, GX, GY, GZ. reflexivity.
Qed.

(** the query as it is once the index is known *)
Lemma bounds_set : exists q', set_cell_bounds (idx_of h) (mkQuery (axis_of cx (enabler cx false)) (axis_of cy (enabler cy false)) (axis_of cz (enabler cz false))) = Ok q' /\
  filter_bounds q' = [cx; cy; cz] /\
  good_axis bx (j_x j) (gr_cx g) (enabler cx false) (gr_sx g) (q_x q') /\ good_axis by_ (j_y j) (gr_cy g) (enabler cy false) (gr_sy g) (q_y q') /\
  forall v, within (j_z j) v -> (surely_in bz (j_z j) v -> axis_accepts (q_z q') 0 v = true) /\ (axis_accepts (q_z q') 0 v = true -> enabler cz false = false -> maybe_in bz (j_z j) v).
Proof.
  pose proof (go_cx _ GO). pose proof (go_cy _ GO).
  destruct (axis_wide bx (j_x j) (gr_cx g) (enabler cx false) WX ltac:(lia) TX) as (ax & EX & X1 & X2 & X3).
  destruct (axis_wide by_ (j_y j) (gr_cy g) (enabler cy false) WY ltac:(lia) TY) as (ay & EY & Y1 & Y2 & Y3).
  destruct (axis_flat bz (j_z j) (enabler cz false) FZ TZ) as (az & EZ & Z1 & Z2 & Z3).
  exists (mkQuery ax ay az). unfold set_cell_bounds, idx_of, h, head_of. cbv zeta. cbn [ix_h ix_rx ix_ry ix_rz ih_cx ih_cy ih_cz ih_minx ih_miny ih_minz ih_maxx ih_maxy ih_maxz q_x q_y q_z].
  rewrite GX, GY, GZ, (go_cz _ GO). change (ax_r (axis_of cx (enabler cx false))) with cx. change (ax_r (axis_of cy (enabler cy false))) with cy. change (ax_r (axis_of cz (enabler cz false))) with cz.
  fold cx in EX. fold cy in EY. fold cz in EZ. rewrite EX. cbn [obind]. rewrite EY. cbn [obind].
  destruct (f64_gt _ f64_zero && negb _); rewrite EZ; cbn [obind]; (split; [reflexivity|]; split; [unfold filter_bounds; cbn [q_x q_y q_z]; rewrite X1, Y1, Z1; reflexivity|]).
  all: rewrite (go_sx _ GO), (go_sy _ GO), (go_rx _ GO), (go_ry _ GO), GX, GY; split; [exact X3|]; split; [exact Y3|exact Z3].
Qed.

Lemma head_fine : 0 <= j_count j < 2 ^ 32 -> no_nul (j_author j) /\ lenB (j_author j) <= 511 -> no_nul (j_comment j) /\ lenB (j_comment j) <= 511 -> no_nul (j_date j) /\ lenB (j_date j) <= 511 -> ihead_ok h.
Proof.
  intros A B C D. pose proof (go_cx _ GO). pose proof (go_cy _ GO). pose proof (go_cz _ GO). unfold h, head_of.
  constructor; cbn [ih_major ih_minor ih_author ih_comment ih_date ih_data ih_count ih_cx ih_cy ih_cz]; try assumption; lia.
Qed.
Lemma bounds_h : index_bounds h = [j_x j; j_y j; j_z j].
Proof. unfold index_bounds, ih_range_x, ih_range_y, ih_range_z, h, head_of. cbn [ih_minx ih_maxx ih_miny ih_maxy ih_minz ih_maxz]. now rewrite !range_eta, GX, GY, GZ. Qed.

(** what [wanted] means for a point in its cell *)
Section Want.
Variables (q' : query) (kx ky i : Z) (dv : bool).
Hypothesis AX : good_axis bx (j_x j) (gr_cx g) (enabler cx false) (gr_sx g) (q_x q').
Hypothesis AY : good_axis by_ (j_y j) (gr_cy g) (enabler cy false) (gr_sy g) (q_y q').
Hypothesis AZ : forall v, within (j_z j) v -> (surely_in bz (j_z j) v -> axis_accepts (q_z q') 0 v = true) /\ (axis_accepts (q_z q') 0 v = true -> enabler cz false = false -> maybe_in bz (j_z j) v).
Hypothesis PI : inside (j_x j) (j_y j) (j_z j) (pt_at pts i).
Hypothesis BX : 0 <= kx < gr_cx g.
Hypothesis BY : 0 <= ky < gr_cy g.
Hypothesis NX : near (rg_min (j_x j)) (rg_max (j_x j)) (gr_cx g) kx (c_x (pt_at pts i)).
Hypothesis NY : near (rg_min (j_y j)) (rg_max (j_y j)) (gr_cy g) ky (c_y (pt_at pts i)).

Lemma want_complete : surely_in bx (j_x j) (c_x (pt_at pts i)) -> surely_in by_ (j_y j) (c_y (pt_at pts i)) -> surely_in bz (j_z j) (c_z (pt_at pts i)) ->
  wanted g pts q' kx ky i dv = true.
Proof.
  intros SX SY SZ. destruct PI as (PX & PY & PZ). destruct (proj1 (AX kx _ BX PX NX) SX) as (X1 & X2 & X3). destruct (proj1 (AY ky _ BY PY NY) SY) as (Y1 & Y2 & Y3). pose proof (proj1 (AZ _ PZ) SZ) as Z2.
  pose proof (go_cx _ GO). pose proof (go_cy _ GO). unfold wanted, cell_interesting, accepts, subcell_interesting. rewrite X1, Y1, (to_signed_small kx), (to_signed_small ky) by lia. change (to_signed 32 0) with 0.
  rewrite X2, Y2, Z2. cbn [andb]. apply orb_true_iff. right. destruct (key_halves g kx ky (pt_at pts i)) as (-> & ->). rewrite GX, GY. now rewrite X3, Y3.
Qed.
Lemma want_sound : wanted g pts q' kx ky i dv = true ->
  (filters bx (j_x j) -> maybe_in bx (j_x j) (c_x (pt_at pts i))) /\ (filters by_ (j_y j) -> maybe_in by_ (j_y j) (c_y (pt_at pts i))) /\ (filters bz (j_z j) -> maybe_in bz (j_z j) (c_z (pt_at pts i))).
Proof.
  intros W. destruct PI as (PX & PY & PZ). pose proof (go_cx _ GO). pose proof (go_cy _ GO). unfold wanted, accepts in W. rewrite (to_signed_small kx), (to_signed_small ky) in W by lia. change (to_signed 32 0) with 0 in W.
  apply andb_prop in W. destruct W as (W & _). apply andb_prop in W. destruct W as (_ & W). apply andb_prop in W. destruct W as (W & W3). apply andb_prop in W. destruct W as (W1 & W2).
  split; [|split]; intros F.
  - apply (proj2 (AX kx _ BX PX NX) W1). destruct (wide_flat _ WX) as [A B C D]. now apply (filters_on bx (j_x j)).
  - apply (proj2 (AY ky _ BY PY NY) W2). destruct (wide_flat _ WY) as [A B C D]. now apply (filters_on by_ (j_y j)).
  - apply (proj2 (AZ _ PZ) W3). destruct FZ as [A B C D]. now apply (filters_on bz (j_z j)).
Qed.
End Want.
End Query.

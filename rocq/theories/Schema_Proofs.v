From Coq Require Import ZArith List Bool String Lia Sorting.
From Coq Require Import ZifyBool ZifyNat.
Import ListNotations.
From Verif Require Import Outcome Bytes Schema_Model Schema_Spec Schema_Api.
Local Open Scope Z_scope.

(** ** the container *)
Definition pos_lt (a b : dim) : Prop := d_pos a < d_pos b.
Definition sorted (l : list dim) : Prop := StronglySorted pos_lt l.

Lemma insert_pos_front d l : Forall (pos_lt d) l -> insert_pos d l = d :: l.
Proof.
  intros H. destruct l as [|x l]; [reflexivity|]. cbn [insert_pos].
  inversion H; subst. unfold pos_lt in *. replace (d_pos d <? d_pos x) with true by lia. reflexivity.
Qed.
Lemma by_pos_sorted l : sorted l -> by_pos l = l.
Proof.
  unfold by_pos. induction 1 as [|x l Hs IH Hf]; cbn [fold_right]; [reflexivity|].
  rewrite IH. now apply insert_pos_front.
Qed.

Definition same_core (a b : dim) : Prop :=
  d_name a = d_name b /\ d_bits a = d_bits b /\ d_required a = d_required b /\ d_pos a = d_pos b /\
  d_active a = d_active b /\ d_numeric a = d_numeric b /\ d_signed a = d_signed b /\ d_integer a = d_integer b.

Lemma same_core_set_off a b x y : same_core a b -> dim_set_off a x y = dim_set_off b x y.
Proof. destruct a, b. unfold same_core, dim_set_off. cbn. intros (-> & -> & -> & -> & -> & -> & -> & ->). reflexivity. Qed.

Lemma calc_loop_core l : forall m byte bit, Forall2 same_core l m -> calc_loop byte bit l = calc_loop byte bit m.
Proof.
  induction l as [|a l IH]; intros m byte bit H; inversion H as [|? b ? m' Hab Hr]; subst; [reflexivity|].
  cbn [calc_loop]. assert (Eb : d_bits a = d_bits b) by apply Hab.
  rewrite <- Eb. rewrite (same_core_set_off a b) by assumption. 
  unfold dim_bytesize. rewrite <- Eb. f_equal.
  destruct (_ =? 0); now apply IH.
Qed.

Lemma calc_loop_same l : forall byte bit, Forall2 same_core (calc_loop byte bit l) l.
Proof.
  induction l as [|a l IH]; intros byte bit; cbn [calc_loop]; constructor.
  - repeat split.
  - destruct (_ =? 0); apply IH.
Qed.

Lemma same_core_refl a : same_core a a. Proof. repeat split. Qed.
Lemma same_core_refls l : Forall2 same_core l l. Proof. induction l; constructor; auto using same_core_refl. Qed.

Lemma F2_map {A} (f : dim -> A) l m : (forall a b, same_core a b -> f a = f b) -> Forall2 same_core l m -> map f l = map f m.
Proof. intros Hf. induction 1; cbn; [reflexivity|]. f_equal; auto. Qed.

Lemma F2_sorted l m : Forall2 same_core l m -> sorted m -> sorted l.
Proof.
  intros H. induction H as [|a b l m Hab Hr IH]; intros Hs; [constructor|].
  inversion Hs as [|? ? Hs1 Hf]; subst. constructor; [now apply IH|].
  assert (Ep : d_pos a = d_pos b) by apply Hab.
  clear - Hr Hf Ep. induction Hr as [|x y l m Hxy Hr IH]; [constructor|].
  inversion Hf as [|? ? H1 H2]; subst. constructor; [|auto].
  unfold pos_lt in *. assert (d_pos x = d_pos y) by apply Hxy. lia.
Qed.

Lemma F2_filter f l m : (forall a b, same_core a b -> f a = f b) -> Forall2 same_core l m ->
  Forall2 same_core (filter f l) (filter f m).
Proof.
  intros Hf. induction 1 as [|a b l m Hab Hr IH]; cbn [filter]; [constructor|].
  rewrite <- (Hf a b Hab). destruct (f a); [constructor; auto|exact IH].
Qed.

(** putting the recomputed offsets back gives exactly the recomputed list *)
Lemma put_back_map l m : Forall2 same_core m l -> sorted l -> map (put_back m) l = m.
Proof.
  intros H Hs.
  assert (G : forall m0 l0, Forall2 same_core m l -> Forall2 same_core m0 l0 ->
     (forall a b, In a m0 -> In b l -> d_pos a < d_pos b) -> map (put_back (m0 ++ m)) l = m).
  2:{ apply (G [] []); [exact H|constructor|intros a b []]. }
  clear H. revert m Hs. induction l as [|b l IH]; intros m Hs m0 l0 H H0 Hlt; inversion H as [|a ? m' ? Hab Hr]; subst; [reflexivity|].
  inversion Hs as [|? ? Hs1 Hf]; subst. cbn [map].
  assert (Ep : d_pos a = d_pos b) by apply Hab.
  assert (E1 : put_back (m0 ++ a :: m') b = a).
  { unfold put_back. assert (F : find (fun x => d_pos x =? d_pos b) (m0 ++ a :: m') = Some a).
    { assert (forall x, In x m0 -> d_pos x < d_pos b) by (intros; apply Hlt; auto; now left).
      clear - H1 Ep. induction m0 as [|x m0 IHm]; cbn [app find].
      - replace (d_pos a =? d_pos b) with true by lia. reflexivity.
      - pose proof (H1 x (or_introl eq_refl)). replace (d_pos x =? d_pos b) with false by lia. apply IHm. intros; apply H1; now right. }
    now rewrite F. }
  rewrite E1. f_equal. specialize (IH m' Hs1 (m0 ++ [a]) (l0 ++ [b]) Hr).
  rewrite <- app_assoc in IH. cbn [app] in IH. apply IH.
  - apply Forall2_app; [exact H0|]. constructor; [exact Hab|constructor].
  - intros x y Hx Hy. apply in_app_or in Hx as [Hx|[<-|[]]].
    + apply Hlt; auto. now right.
    + rewrite Ep. rewrite Forall_forall in Hf. apply Hf. exact Hy.
Qed.

Definition canon (fmt np : Z) (ds : list dim) : schema :=
  mkSchema fmt np (sum_bits ds) (sum_bits (filter d_required ds)) (calc_loop 0 0 ds).

Lemma calculate_sizes_canon s : sorted (s_dims s) ->
  calculate_sizes s = canon (s_format s) (s_nextpos s) (s_dims s).
Proof.
  intros Hs. unfold calculate_sizes, canon. rewrite by_pos_sorted by assumption.
  f_equal. apply put_back_map; [apply calc_loop_same|assumption].
Qed.

Lemma sorted_snoc l d : sorted l -> Forall (fun x => d_pos x < d_pos d) l -> sorted (l ++ [d]).
Proof.
  induction 1 as [|x l Hs IH Hf]; intros H; cbn [app].
  - constructor; constructor.
  - inversion H; subst. constructor; [now apply IH|]. apply Forall_app. split; [exact Hf|]. constructor; [assumption|constructor].
Qed.

Lemma find_name_none c n : ~ In n (map d_name c) -> find_name c n = None.
Proof.
  unfold find_name. induction c as [|x c IH]; cbn [map In find]; intros H; [reflexivity|].
  destruct (String.eqb_spec (d_name x) n); [tauto|]. apply IH. tauto.
Qed.

Lemma mi_insert_fresh c d : ~ In (d_name d) (map d_name c) -> Forall (fun x => d_pos x < d_pos d) c ->
  mi_insert c d = c ++ [d].
Proof.
  intros Hn Hp. unfold mi_insert.
  destruct (existsb _ c) eqn:E; [|reflexivity]. apply existsb_exists in E as (x & Hx & Hb).
  rewrite Forall_forall in Hp. specialize (Hp x Hx). apply orb_true_iff in Hb as [Hb|Hb]; [lia|].
  apply String.eqb_eq in Hb. exfalso. apply Hn. rewrite <- Hb. now apply in_map.
Qed.

Definition bounded (np : Z) (l : list dim) : Prop := Forall (fun x => d_pos x < np) l.

Lemma add_dimension_fresh s d : sorted (s_dims s) -> bounded (s_nextpos s) (s_dims s) ->
  ~ In (d_name d) (map d_name (s_dims s)) ->
  add_dimension s d = canon (s_format s) ((s_nextpos s + 1) mod 2 ^ 32) (s_dims s ++ [dim_set_pos d (s_nextpos s)]).
Proof.
  intros Hs Hb Hn. unfold add_dimension. rewrite find_name_none by exact Hn.
  rewrite mi_insert_fresh; [|exact Hn|exact Hb].
  rewrite calculate_sizes_canon; [reflexivity|].
  cbn [s_dims]. apply sorted_snoc; assumption.
Qed.

(** canon only depends on the dimensions up to their offsets *)
Lemma sum_bits_core l m : Forall2 same_core l m -> sum_bits l = sum_bits m.
Proof.
  intros H. unfold sum_bits. generalize 0. induction H as [|a b l m Hab Hr IH]; intros z; cbn [fold_left]; [reflexivity|].
  assert (E : d_bits a = d_bits b) by apply Hab. rewrite E. apply IH.
Qed.
Lemma canon_core fmt np l m : Forall2 same_core l m -> canon fmt np l = canon fmt np m.
Proof.
  intros H. unfold canon. f_equal.
  - now apply sum_bits_core.
  - apply sum_bits_core. apply F2_filter; [|exact H]. intros a b Hab. apply Hab.
  - now apply calc_loop_core.
Qed.

(** a list of dims with positions [np, np+1, ...] *)
Fixpoint place (np : Z) (l : list dim) : list dim :=
  match l with [] => [] | d :: r => dim_set_pos d np :: place (np + 1) r end.

Lemma place_names np l : map d_name (place np l) = map d_name l.
Proof. revert np; induction l as [|d l IH]; intros np; cbn; [reflexivity|now rewrite IH]. Qed.
Lemma place_app np l m : place np (l ++ m) = place np l ++ place (np + Z.of_nat (List.length l)) m.
Proof.
  revert np; induction l as [|d l IH]; intros np; cbn [place app List.length].
  - f_equal. lia.
  - rewrite IH. do 2 f_equal. f_equal. lia.
Qed.
Lemma place_length np l : List.length (place np l) = List.length l.
Proof. revert np; induction l as [|d l IH]; intros np; cbn; [reflexivity|now rewrite IH]. Qed.
Lemma place_bounds np l : Forall (fun x => np <= d_pos x < np + Z.of_nat (List.length l)) (place np l).
Proof.
  revert np; induction l as [|d l IH]; intros np; cbn [place List.length]; constructor.
  - cbn. lia.
  - eapply Forall_impl; [|apply IH]. cbv beta. intros; lia.
Qed.
Lemma place_sorted np l : sorted (place np l).
Proof.
  revert np; induction l as [|d l IH]; intros np; cbn [place]; constructor; [apply IH|].
  eapply Forall_impl; [|apply place_bounds]. cbv beta. unfold pos_lt. cbn [d_pos dim_set_pos]. intros; lia.
Qed.

Lemma F2_refl_app l m x : Forall2 same_core l m -> Forall2 same_core (l ++ x) (m ++ x).
Proof. intros H. apply Forall2_app; [exact H|apply same_core_refls]. Qed.

(** adding a list of fresh dimensions *)
Lemma add_many l : forall fmt np ds, sorted ds -> bounded np ds -> 0 <= np ->
  np + Z.of_nat (List.length l) < 2 ^ 32 ->
  NoDup (map d_name l) -> (forall n, In n (map d_name l) -> ~ In n (map d_name ds)) ->
  fold_left add_dimension l (canon fmt np ds) = canon fmt (np + Z.of_nat (List.length l)) (ds ++ place np l).
Proof.
  induction l as [|d l IH]; intros fmt np ds Hs Hb H0 Hr Hn Hd; cbn [fold_left place List.length].
  - rewrite app_nil_r. f_equal. lia.
  - cbn [List.length] in Hr. inversion Hn as [|? ? Hn1 Hn2]; subst.
    assert (C : Forall2 same_core (calc_loop 0 0 ds) ds) by apply calc_loop_same.
    assert (Names : map d_name (calc_loop 0 0 ds) = map d_name ds) by (apply F2_map; [intros a b Hab; apply Hab|exact C]).
    rewrite add_dimension_fresh.
    + cbn [s_format s_nextpos s_dims canon].
      rewrite (canon_core _ _ _ (ds ++ [dim_set_pos d np])) by (now apply F2_refl_app).
      rewrite Z.mod_small by lia. rewrite IH; try lia; auto.
      * rewrite <- app_assoc. cbn [app]. f_equal; lia.
      * apply sorted_snoc; [exact Hs|exact Hb].
      * unfold bounded. apply Forall_app. split.
        -- eapply Forall_impl; [|exact Hb]. cbv beta. intros; lia.
        -- constructor; [cbn; lia|constructor].
      * intros n Hin Hin2. rewrite map_app in Hin2. apply in_app_or in Hin2 as [Hin2|[E|[]]].
        -- apply (Hd n); [now right|exact Hin2].
        -- cbn in E. subst. contradiction.
    + cbn [s_dims canon]. eapply F2_sorted; [exact C|exact Hs].
    + cbn [s_dims s_nextpos canon]. unfold bounded in *. clear - C Hb. induction C as [|a b l m Hab Hr IH]; [constructor|].
      inversion Hb; subst. constructor; [|auto]. assert (d_pos a = d_pos b) by apply Hab. lia.
    + cbn [s_dims canon]. rewrite Names. apply Hd. now left.
Qed.

(** ** standard dimensions *)
Definition std_dims (fmt : Z) : list dim :=
  map (fun d => dim_set_req d true true) record0_dims
  ++ (if (fmt =? 1) || (fmt =? 3) then time_dims else [])
  ++ (if (fmt =? 2) || (fmt =? 3) then color_dims else []).

Lemma std_dims_fields fmt : map field_of (std_dims fmt) = std_fields fmt.
Proof. unfold std_dims, std_fields. destruct (fmt =? 1), (fmt =? 2), (fmt =? 3); reflexivity. Qed.

Lemma std_dims_names fmt : map d_name (std_dims fmt) = map f_name (std_fields fmt).
Proof. rewrite <- std_dims_fields, map_map. reflexivity. Qed.

Lemma std_names_in fmt n : In n (map f_name (std_fields fmt)) -> In n std_names.
Proof.
  unfold std_names, std_fields. rewrite !map_app. intros H. rewrite !in_app_iff in *.
  change ((3 =? 1) || (3 =? 3)) with true. change ((3 =? 2) || (3 =? 3)) with true.
  destruct H as [H|[H|H]]; [left; exact H|right; left|right; right].
  - destruct ((fmt =? 1) || (fmt =? 3)); [exact H|destruct H].
  - destruct ((fmt =? 2) || (fmt =? 3)); [exact H|destruct H].
Qed.

Lemma std_names_nodup fmt : NoDup (map f_name (std_fields fmt)).
Proof.
  unfold std_fields. destruct ((fmt =? 1) || (fmt =? 3)), ((fmt =? 2) || (fmt =? 3)); cbn;
    repeat (constructor; [cbn; intuition discriminate|]); constructor.
Qed.

Definition req0 : list dim := map (fun d => dim_set_req d true true) record0_dims.
Lemma record0_state fm b bb : add_record0 (mkSchema fm 0 b bb []) = mkSchema fm 12 160 0 (calc_loop 0 0 (place 0 req0)).
Proof. vm_compute. reflexivity. Qed.

Lemma req0_bounded : bounded 12 (calc_loop 0 0 (place 0 req0)).
Proof. vm_compute. repeat constructor. Qed.

Lemma update_required_ok s fmt : 0 <= fmt <= 3 -> 
  let user := by_pos (filter (fun d => negb (d_required d)) (s_dims s)) in
  NoDup (map d_name user) -> (forall n, In n (map d_name user) -> ~ In n std_names) ->
  Z.of_nat (List.length user) < 2 ^ 31 ->
  update_required s fmt =
    (let ds := place 0 (std_dims fmt ++ user) in canon (s_format s) (Z.of_nat (List.length ds)) ds, Ok tt).
Proof.
  intros Hf user Hn Hd Hl. unfold update_required. fold user.
  set (s0 := mkSchema (s_format s) 0 (s_bits s) (s_basebits s) []).
  assert (E0 : exists bb req, req = req0 /\ add_record0 s0 = mkSchema (s_format s) 12 160 bb (calc_loop 0 0 (place 0 req))).
  { exists 0, req0. split; [reflexivity|]. apply record0_state. }
  destruct E0 as (bb & req & Ereq & E0). rewrite E0.
  assert (Rlen : List.length req = 12%nat) by (rewrite Ereq; reflexivity).
  (* a state with the right dimensions, whatever its sums *)
  assert (Step : forall l, l <> [] -> NoDup (map d_name (req ++ l)) -> Z.of_nat (List.length l) < 2 ^ 31 + 100 ->
     fold_left add_dimension l (mkSchema (s_format s) 12 160 bb (calc_loop 0 0 (place 0 req)))
     = canon (s_format s) (Z.of_nat (List.length (place 0 (req ++ l)))) (place 0 (req ++ l))).
  { intros l Hne Hnd Hlen. destruct l as [|d l]; [congruence|]. cbn [fold_left].
    assert (C : Forall2 same_core (calc_loop 0 0 (place 0 req)) (place 0 req)) by apply calc_loop_same.
    rewrite map_app in Hnd. cbn [map] in Hnd.
    assert (Hnd2 : NoDup (map d_name (d :: l))).
    { cbn [map]. revert Hnd. generalize (map d_name req). induction l0; cbn [app]; intros H; [exact H|]. inversion H; auto. }
    assert (Hdis : forall n, In n (map d_name (d :: l)) -> ~ In n (map d_name req)).
    { intros n H1 H2. cbn [map] in H1. revert Hnd H2. generalize (map d_name req). induction l0 as [|x l0 IHl]; cbn [app In]; [tauto|].
      intros H [->|H3]; inversion H as [|? ? Hx Hr]; subst.
      - apply Hx. apply in_or_app. now right.
      - now apply IHl. }
    rewrite add_dimension_fresh.
    - cbn [s_format s_nextpos s_dims].
      rewrite (canon_core _ _ _ (place 0 req ++ [dim_set_pos d 12])) by (now apply F2_refl_app).
      change ((12 + 1) mod 2 ^ 32) with 13.
      cbn [List.length] in Hlen.
      rewrite add_many.
      + rewrite place_app. rewrite Rlen. change (0 + Z.of_nat 12) with 12. cbn [place]. rewrite <- app_assoc. cbn [app].
        f_equal. rewrite app_length, place_length. cbn [List.length]. rewrite place_length. rewrite Rlen. lia.
      + apply sorted_snoc; [apply place_sorted|]. eapply Forall_impl; [|apply place_bounds]. cbv beta.
        rewrite Rlen. change (Z.of_nat 12) with 12. cbn [d_pos dim_set_pos]. intros; lia.
      + apply Forall_app. split.
        * eapply Forall_impl; [|apply place_bounds]. cbv beta. rewrite Rlen. change (Z.of_nat 12) with 12. intros; lia.
        * constructor; [cbn; lia|constructor].
      + lia.
      + lia.
      + inversion Hnd2; assumption.
      + intros n H1 H2. rewrite map_app, place_names in H2. apply in_app_or in H2 as [H2|[H2|[]]].
        * apply (Hdis n); [now right|exact H2].
        * cbn in H2. subst n. inversion Hnd2; contradiction.
    - cbn [s_dims]. eapply F2_sorted; [exact C|apply place_sorted].
    - cbn [s_dims s_nextpos]. rewrite Ereq. exact req0_bounded.
    - cbn [s_dims]. rewrite (F2_map d_name _ (place 0 req)); [|intros a b Hab; apply Hab|exact C].
      rewrite place_names. apply Hdis. now left. }
  assert (NDall : forall g, NoDup (map d_name (std_dims g ++ user))).
  { intros g. rewrite map_app, std_dims_names.
    pose proof (std_names_nodup g) as H1. pose proof (std_names_in g) as H2. revert H1 H2.
    generalize (map f_name (std_fields g)). induction l as [|x l IHl]; cbn [app]; intros H1 H2; [exact Hn|].
    inversion H1; subst. constructor.
    - intros Hin. apply in_app_or in Hin as [Hin|Hin]; [contradiction|]. apply (Hd x Hin). apply H2. now left.
    - apply IHl; auto. intros n Hn0. apply H2. now right. }
  assert (Cs : forall fm np ds, sorted ds -> calculate_sizes (canon fm np ds) = canon fm np ds).
  { intros fm np ds Hs. rewrite calculate_sizes_canon.
    - cbn [canon s_format s_nextpos s_dims]. apply canon_core. apply calc_loop_same.
    - cbn [canon s_dims]. eapply F2_sorted; [apply calc_loop_same|exact Hs]. }
  assert (Fin : forall l, std_dims fmt ++ user = req ++ l -> 
     calculate_sizes (fold_left add_dimension l (mkSchema (s_format s) 12 160 bb (calc_loop 0 0 (place 0 req))))
     = canon (s_format s) (Z.of_nat (List.length (place 0 (std_dims fmt ++ user)))) (place 0 (std_dims fmt ++ user))).
  { intros l El. rewrite El. destruct l as [|d l].
    - cbn [fold_left]. rewrite app_nil_r. rewrite calculate_sizes_canon.
      + cbn [s_format s_nextpos s_dims]. rewrite place_length. rewrite Rlen. change (Z.of_nat 12) with 12.
        apply canon_core. apply calc_loop_same.
      + cbn [s_dims]. eapply F2_sorted; [apply calc_loop_same|apply place_sorted].
    - rewrite Step; [apply Cs, place_sorted|discriminate|rewrite <- El; apply NDall|].
      assert (List.length (std_dims fmt ++ user) = List.length (req ++ d :: l)) by (now rewrite El).
      rewrite !app_length in H. rewrite Rlen in H.
      assert (List.length (std_dims fmt) <= 16)%nat by (unfold std_dims; destruct (_ || _), (_ || _); cbn; lia). lia. }
  cbv zeta. fold user.
  assert (Hc : fmt = 3 \/ fmt = 2 \/ fmt = 1 \/ fmt = 0) by lia.
  destruct Hc as [Ec|[Ec|[Ec|Ec]]]; subst fmt; cbn [Z.eqb Pos.eqb]; f_equal; unfold add_color, add_time; rewrite <- ?fold_left_app; apply Fin;
    rewrite Ereq; unfold std_dims; cbn [Z.eqb Pos.eqb orb]; rewrite <- ?app_assoc; reflexivity.
Qed.

(** ** packing *)
(** Fields that the offset loop places correctly, starting at bit [S0]. *)
Fixpoint packed (S0 : Z) (l : list field) : Prop :=
  match l with
  | [] => True
  | f :: r => 0 < f_bits f /\
      ((S0 mod 8 = 0 /\ f_bits f mod 8 = 0) \/ S0 mod 8 + f_bits f <= 8) /\ packed (S0 + f_bits f) r
  end.

Lemma start_bit_0 l : start_bit l 0 = 0. Proof. reflexivity. Qed.
Lemma start_bit_S f l i : start_bit (f :: l) (S i) = f_bits f + start_bit l i. Proof. reflexivity. Qed.

Lemma calc_loop_packed l : forall S0 byte bit, packed S0 (map field_of l) -> S0 = 8 * byte + bit -> 0 <= bit < 8 ->
  map d_byteoff (calc_loop byte bit l) =
  map (fun i => (S0 + start_bit (map field_of l) i) / 8) (seq 0 (List.length (map field_of l))).
Proof.
  induction l as [|d l IH]; intros S0 byte bit Hp Es Hb; cbn [calc_loop map List.length seq]; [reflexivity|].
  cbn [packed map field_of f_bits] in Hp. destruct Hp as (Hpos & Hc & Hp).
  cbn [d_byteoff dim_set_off]. f_equal.
  { rewrite start_bit_0. apply (Z.div_unique _ _ _ bit); lia. }
  assert (Sh : map (fun i => (S0 + start_bit (field_of d :: map field_of l) i) / 8) (seq 1 (List.length (map field_of l)))
     = map (fun i => (S0 + d_bits d + start_bit (map field_of l) i) / 8) (seq 0 (List.length (map field_of l)))).
  { rewrite <- seq_shift, map_map. apply map_ext. intros i. rewrite start_bit_S. cbn [field_of f_bits]. f_equal. lia. }
  rewrite Sh. clear Sh.
  assert (Hm : S0 mod 8 = bit) by (symmetry; apply (Z.mod_unique _ _ byte); lia).
  destruct Hc as [[H1 H2]|H1].
  - rewrite H2. replace ((bit + 0) mod 8 =? 0) with true by (rewrite Z.add_0_r, Z.mod_small; lia).
    apply IH; auto; [|lia]. unfold dim_bytesize. rewrite H2. cbn [Z.ltb Z.compare].
    pose proof (Z.div_mod (d_bits d) 8). lia.
  - rewrite Hm in H1.
    destruct (Z.eq_dec (d_bits d) 8) as [E8|N8].
    + rewrite E8 in *. assert (bit = 0) by lia. clear Hm. subst bit. change ((0 + 8 mod 8) mod 8 =? 0) with true. cbv iota.
      apply IH; [exact Hp| |lia]. unfold dim_bytesize. rewrite E8. change (0 <? 8 mod 8) with false. cbv iota. change (8 / 8) with 1. lia.
    + rewrite (Z.mod_small (d_bits d) 8) by lia.
      destruct (Z.eq_dec (bit + d_bits d) 8) as [E|N].
      * rewrite E. change (8 mod 8 =? 0) with true. cbv iota. apply IH; auto; [|lia].
        unfold dim_bytesize. rewrite Z.mod_small by lia. replace (0 <? d_bits d) with true by lia.
        replace (8 <? d_bits d) with false by lia. lia.
      * rewrite Z.mod_small by lia. replace (bit + d_bits d =? 0) with false by lia. apply IH; auto; lia.
Qed.

Lemma fold_sum_bits l : forall z, fold_left (fun a d => (a + d_bits d) mod two64) l (z mod two64)
   = (z + total_bits (map field_of l)) mod two64.
Proof.
  induction l as [|d l IH]; intros z; cbn [fold_left map total_bits fold_right].
  - now rewrite Z.add_0_r.
  - rewrite Zplus_mod_idemp_l, IH. f_equal. cbn [field_of f_bits]. change (fold_right _ 0 (map field_of l)) with (total_bits (map field_of l)). lia.
Qed.
Lemma sum_bits_total l : sum_bits l = total_bits (map field_of l) mod 2 ^ 64.
Proof. unfold sum_bits. exact (fold_sum_bits l 0). Qed.

Lemma filter_field_of f g l : (forall d, f d = g (field_of d)) -> map field_of (filter f l) = filter g (map field_of l).
Proof. intros H. induction l as [|d l IH]; cbn [filter map]; [reflexivity|]. rewrite H. destruct (g (field_of d)); cbn [map]; now rewrite IH. Qed.

Lemma canon_shows fmt np ds : sorted ds -> packed 0 (map field_of ds) -> schema_shows (canon fmt np ds) (map field_of ds).
Proof.
  intros Hs Hp. unfold schema_shows, schema_fields. cbn [canon s_dims s_bits s_basebits].
  assert (C : Forall2 same_core (calc_loop 0 0 ds) ds) by apply calc_loop_same.
  rewrite by_pos_sorted by (eapply F2_sorted; [exact C|exact Hs]).
  split; [|split; [|split]].
  - apply F2_map; [|exact C]. intros a b (H1 & H2 & H3 & _). unfold field_of. congruence.
  - rewrite (calc_loop_packed ds 0 0 0 Hp); auto; lia.
  - apply sum_bits_total.
  - rewrite sum_bits_total. now rewrite (filter_field_of _ f_required).
Qed.

(** ** histories *)
Definition std_prefix (fmt : Z) (fs : list field) : Prop :=
  exists cs, fs = std_fields fmt ++ cs /\
    Forall (fun f => f_required f = false /\ 0 < f_bits f /\ f_bits f mod 8 = 0 /\ ~ In (f_name f) std_names) cs.

Lemma total_bits_app a b : total_bits (a ++ b) = total_bits a + total_bits b.
Proof. unfold total_bits. induction a as [|f a IH]; cbn [app fold_right]; [lia|]. rewrite IH. lia. Qed.

Lemma packed_app a : forall S0 b, packed S0 a -> packed (S0 + total_bits a) b -> packed S0 (a ++ b).
Proof.
  induction a as [|f a IH]; intros S0 b Ha Hb; cbn [app packed] in *.
  - cbn in Hb. now rewrite Z.add_0_r in Hb.
  - destruct Ha as (H1 & H2 & H3). split; [exact H1|]. split; [exact H2|]. apply IH; [exact H3|].
    change (total_bits (f :: a)) with (f_bits f + total_bits a) in Hb. now rewrite Z.add_assoc in Hb.
Qed.
Lemma packed_aligned cs : forall S0, S0 mod 8 = 0 -> Forall (fun f => 0 < f_bits f /\ f_bits f mod 8 = 0) cs -> packed S0 cs.
Proof.
  induction cs as [|f cs IH]; intros S0 H0 H; cbn [packed]; [exact I|].
  inversion H as [|? ? [H1 H2] H3]; subst. split; [exact H1|]. split; [left; auto|]. apply IH; [|exact H3].
  rewrite Zplus_mod, H0, H2. reflexivity.
Qed.
Lemma std_packed fmt : packed 0 (std_fields fmt) /\ total_bits (std_fields fmt) mod 8 = 0.
Proof.
  unfold std_fields. destruct ((fmt =? 1) || (fmt =? 3)), ((fmt =? 2) || (fmt =? 3)); cbn; repeat split; try lia;
    try (left; split; reflexivity); right; vm_compute; discriminate.
Qed.
Lemma prefix_packed fmt fs : std_prefix fmt fs -> packed 0 fs.
Proof.
  intros (cs & -> & Hc). destruct (std_packed fmt) as [P T]. apply packed_app; [exact P|].
  apply packed_aligned; [exact T|]. eapply Forall_impl; [|exact Hc]. cbv beta. tauto.
Qed.

Definition sinv (k : Z) (s : schema) (fs : list field) : Prop :=
  exists np ds, s = canon (s_format s) np ds /\ sorted ds /\ bounded np ds /\ 0 <= np <= 16 + k /\
    map field_of ds = fs /\ NoDup (map f_name fs) /\ std_prefix (s_format s) fs /\ 0 <= s_format s <= 3 /\
    Z.of_nat (List.length fs) <= Z.of_nat (List.length (std_fields (s_format s))) + k.

Lemma sinv_shows k s fs : sinv k s fs -> schema_shows s fs.
Proof.
  intros (np & ds & -> & Hs & Hb & Hnp & <- & Hn & Hp & _). apply canon_shows; [exact Hs|].
  now apply (prefix_packed (s_format (canon (s_format s) np ds))).
Qed.

Lemma names_map ds : map f_name (map field_of ds) = map d_name ds.
Proof. rewrite map_map. reflexivity. Qed.

Lemma std_req fmt : Forall (fun f => f_required f = true) (std_fields fmt).
Proof. unfold std_fields. destruct (_ || _), (_ || _); repeat constructor. Qed.

Lemma custom_of_prefix fmt cs : Forall (fun f => f_required f = false) cs ->
  custom_fields (std_fields fmt ++ cs) = cs.
Proof.
  intros H. unfold custom_fields. rewrite filter_app.
  assert (E1 : filter (fun f => negb (f_required f)) (std_fields fmt) = []).
  { pose proof (std_req fmt) as R. induction R as [|f l Hf R IH]; cbn [filter]; [reflexivity|]. rewrite Hf. exact IH. }
  rewrite E1. cbn [app]. induction H as [|f l Hf H IH]; cbn [filter]; [reflexivity|]. rewrite Hf. cbn. now rewrite IH.
Qed.

Lemma filter_sorted f l : sorted l -> sorted (filter f l).
Proof.
  induction 1 as [|x l Hs IH Hf]; cbn [filter]; [constructor|].
  destruct (f x); [|exact IH]. constructor; [exact IH|].
  clear - Hf. induction Hf; cbn [filter]; [constructor|]. destruct (f x0); auto.
Qed.
Lemma NoDup_filter_map {A B} (g : A -> B) f (l : list A) : NoDup (map g l) -> NoDup (map g (filter f l)).
Proof.
  induction l as [|x l IH]; cbn [map filter]; intros H; [constructor|]. inversion H as [|? ? H1 H2]; subst.
  destruct (f x); cbn [map]; [|auto]. constructor; [|auto].
  intros Hin. apply H1. apply in_map_iff in Hin as (y & E & Hy). apply filter_In in Hy as [Hy _]. rewrite <- E. now apply in_map.
Qed.
Lemma filter_length_le {A} (f : A -> bool) l : (List.length (filter f l) <= List.length l)%nat.
Proof. induction l; cbn [filter List.length]; [lia|]. destruct (f a); cbn [List.length]; lia. Qed.

Lemma find_name_in c n d : NoDup (map d_name c) -> In d c -> d_name d = n -> find_name c n = Some d.
Proof.
  intros Hn Hin <-. unfold find_name. induction c as [|x c IH]; [destruct Hin|]. cbn [map] in Hn. inversion Hn as [|? ? H1 H2]; subst.
  cbn [find]. destruct (String.eqb_spec (d_name x) (d_name d)) as [E|E].
  - destruct Hin as [->|Hin]; [reflexivity|]. exfalso. apply H1. rewrite E. now apply in_map.
  - destruct Hin as [->|Hin]; [congruence|]. now apply IH.
Qed.

Lemma erase_sorted ds d : sorted ds -> NoDup (map d_name ds) -> In d ds ->
  filter (fun x => negb (d_pos x =? d_pos d)) ds = filter (fun x => negb (String.eqb (d_name x) (d_name d))) ds.
Proof.
  intros Hs Hn Hin. apply filter_ext_in. intros x Hx. f_equal.
  destruct (Z.eqb_spec (d_pos x) (d_pos d)) as [E|E], (String.eqb_spec (d_name x) (d_name d)) as [E2|E2]; auto; exfalso.
  - assert (x = d); [|congruence]. clear - Hs Hx Hin E.
    induction Hs as [|y l Hs IH Hf]; [destruct Hx|]. rewrite Forall_forall in Hf. unfold pos_lt in Hf.
    destruct Hx as [->|Hx], Hin as [->|Hin]; auto.
    + specialize (Hf _ Hin). lia.
    + specialize (Hf _ Hx). lia.
  - assert (x = d); [|congruence]. clear - Hn Hx Hin E2.
    induction ds as [|y l IH]; [destruct Hx|]. cbn [map] in Hn. inversion Hn as [|? ? H1 H2]; subst.
    destruct Hx as [->|Hx], Hin as [->|Hin]; auto.
    + exfalso. apply H1. rewrite E2. now apply in_map.
    + exfalso. apply H1. rewrite <- E2. now apply in_map.
Qed.

Lemma sinv_step k s fs o : 0 <= k -> k + 100 < 2 ^ 30 -> sinv k s fs -> sop_ok fs o ->
  exists s', sop_run s o = Ok s' /\ sinv (k + 1) s' (sop_spec fs o) /\
    (forall f, o = SOFormat f -> s_format s' = f) /\ ((forall f, o <> SOFormat f) -> s_format s' = s_format s).
Proof.
  intros Hk Hk2 (np & ds & Es & Hs & Hb & Hnp & Ef & Hn & (cs & Ecs & Hcs) & Hfmt & Hlen) Ho.
  assert (C : Forall2 same_core (calc_loop 0 0 ds) ds) by apply calc_loop_same.
  assert (Sc : sorted (calc_loop 0 0 ds)) by (eapply F2_sorted; [exact C|exact Hs]).
  assert (Bc : bounded np (calc_loop 0 0 ds)).
  { unfold bounded in *. clear - C Hb. induction C as [|a b l m Hab Hr IH]; [constructor|].
    inversion Hb; subst. constructor; [|auto]. assert (d_pos a = d_pos b) by apply Hab. lia. }
  assert (Nc : map d_name (calc_loop 0 0 ds) = map d_name ds) by (apply F2_map; [intros a b Hab; apply Hab|exact C]).
  assert (Fc : map field_of (calc_loop 0 0 ds) = map field_of ds).
  { apply F2_map; [|exact C]. intros a b (H1 & H2 & H3 & _). unfold field_of. congruence. }
  assert (Enames : map f_name fs = map d_name ds) by (rewrite <- Ef; apply names_map).
  destruct o as [n b num sg int|n|f]; cbn [sop_run sop_spec sop_ok] in *.
  - destruct Ho as (Hb0 & Hb8 & Hstd & Hfresh). eexists. split; [reflexivity|].
    rewrite Es at 1 2 3. rewrite add_dimension_fresh; cbn [canon s_dims s_nextpos s_format user_dim d_name]; auto; [|rewrite Nc, <- Enames; exact Hfresh].
    rewrite (canon_core _ _ _ (ds ++ [dim_set_pos (user_dim n b num sg int) np])) by (now apply F2_refl_app).
    rewrite Z.mod_small by lia.
    split; [|split; [intros f Hf; discriminate|reflexivity]].
    exists (np + 1), (ds ++ [dim_set_pos (user_dim n b num sg int) np]). cbn [canon s_format].
    split; [reflexivity|]. split; [apply sorted_snoc; [exact Hs|exact Hb]|].
    split. { apply Forall_app. split; [eapply Forall_impl; [|exact Hb]; cbv beta; intros; lia|constructor; [cbn; lia|constructor]]. }
    split; [lia|]. split. { rewrite map_app, Ef. reflexivity. }
    split. { rewrite map_app. cbn [map f_name]. 
      apply (Permutation.Permutation_NoDup (l := n :: map f_name fs)); [apply Permutation.Permutation_cons_append|constructor; assumption]. }
    split. { exists (cs ++ [mkField n b false]). rewrite Ecs, <- app_assoc. split; [reflexivity|].
      apply Forall_app. split; [exact Hcs|]. constructor; [cbn; auto|constructor]. }
    split; [exact Hfmt|]. rewrite app_length. cbn [List.length]. lia.
  - destruct Ho as (f & Hin & Hname & Hreq). rewrite <- Ef in Hin. apply in_map_iff in Hin as (d0 & Ed0 & Hin).
    (* the dimension found *)
    assert (Hin' : In (field_of d0) (map field_of (calc_loop 0 0 ds))) by (rewrite Fc; now apply in_map).
    apply in_map_iff in Hin' as (d & Ed & Hd).
    assert (Edn : d_name d = n) by (rewrite <- Hname, <- Ed0, <- Ed; reflexivity).
    assert (G : get_dimension s n = Some d).
    { rewrite Es. unfold get_dimension. cbn [canon s_dims]. apply find_name_in; auto. rewrite Nc, <- Enames. exact Hn. }
    rewrite G. eexists. split; [reflexivity|]. rewrite Es at 1 2 3.
    unfold remove_dimension, mi_erase. cbn [canon s_format s_nextpos s_bits s_basebits s_dims].
    rewrite erase_sorted; [|exact Sc|rewrite Nc, <- Enames; exact Hn|exact Hd]. rewrite Edn.
    rewrite calculate_sizes_canon by (cbn [s_dims]; apply filter_sorted, Sc). cbn [s_format s_nextpos s_dims].
    set (keep := fun x => negb (String.eqb (d_name x) n)).
    rewrite (canon_core _ _ _ (filter keep ds)) by (apply F2_filter; [|exact C]; intros a b Hab; unfold keep; f_equal; f_equal; apply Hab).
    split; [|split; [intros f' Hf'; discriminate|reflexivity]].
    assert (Ed3 : map field_of (filter keep ds) = drop_field n fs).
    { unfold drop_field. rewrite <- Ef. apply filter_field_of. reflexivity. }
    exists np, (filter keep ds). cbn [canon s_format].
    split; [reflexivity|]. split; [now apply filter_sorted|]. split.
    { unfold bounded in *. apply Forall_forall. intros x Hx. apply filter_In in Hx as [Hx _]. rewrite Forall_forall in Hb. auto. }
    split; [lia|]. split; [exact Ed3|].
    split. { rewrite <- Ed3, names_map. apply NoDup_filter_map. now rewrite <- Enames. }
    split. { exists (drop_field n cs). rewrite Ecs. unfold drop_field. rewrite filter_app. split.
      - f_equal. assert (Hnn : ~ In n (map f_name (std_fields (s_format s)))).
        { intros Hx. assert (Hfc : In f cs).
          { assert (In f fs) by (rewrite <- Ef, <- Ed0; now apply in_map). rewrite Ecs in H. apply in_app_or in H as [H|H]; [|exact H].
            pose proof (std_req (s_format s)) as R. rewrite Forall_forall in R. specialize (R f H). congruence. }
          rewrite Forall_forall in Hcs. destruct (Hcs f Hfc) as (_ & _ & _ & Hns). apply Hns. rewrite Hname. now apply std_names_in in Hx. }
        clear - Hnn. induction (std_fields (s_format s)) as [|x l IH]; cbn [filter map In] in *; [reflexivity|].
        destruct (String.eqb_spec (f_name x) n); [tauto|]. cbn. f_equal. apply IH. tauto.
      - apply Forall_forall. intros x Hx. apply filter_In in Hx as [Hx _]. rewrite Forall_forall in Hcs. auto. }
    split; [exact Hfmt|]. rewrite <- Ed3, map_length. pose proof (filter_length_le keep ds).
    assert (List.length fs = List.length ds) by (rewrite <- Ef; apply map_length). lia.
  - set (user := by_pos (filter (fun d => negb (d_required d)) (s_dims s))).
    assert (Eu : user = filter (fun d => negb (d_required d)) (calc_loop 0 0 ds)).
    { unfold user. rewrite Es. cbn [canon s_dims]. apply by_pos_sorted. apply filter_sorted, Sc. }
    assert (Euf : map field_of user = custom_fields fs).
    { rewrite Eu. rewrite (filter_field_of _ (fun f => negb (f_required f))) by reflexivity. now rewrite Fc, Ef. }
    assert (Ecus : custom_fields fs = cs).
    { rewrite Ecs. apply custom_of_prefix. eapply Forall_impl; [|exact Hcs]. cbv beta. tauto. }
    assert (Hun : map d_name user = map f_name cs) by (rewrite <- names_map, Euf, Ecus; reflexivity).
    assert (Hl : (List.length cs <= List.length fs)%nat) by (rewrite Ecs, app_length; lia).
    pose proof (update_required_ok s f Ho) as U. cbv zeta in U. fold user in U.
    assert (NDc : NoDup (map f_name cs)).
    { rewrite Ecs, map_app in Hn. revert Hn. generalize (map f_name (std_fields (s_format s))).
      induction l; cbn [app]; intros H; [exact H|]. inversion H; auto. }
    rewrite Hun in U. specialize (U NDc).
    assert (Hcn : forall n, In n (map f_name cs) -> ~ In n std_names).
    { intros n Hin. apply in_map_iff in Hin as (x & <- & Hx). rewrite Forall_forall in Hcs. apply Hcs. exact Hx. }
    specialize (U Hcn).
    assert (Hul : List.length user = List.length cs) by (rewrite <- (map_length d_name user), Hun; apply map_length).
    assert (Hfl : (List.length fs = List.length (std_fields (s_format s)) + List.length cs)%nat) by (rewrite Ecs at 1; apply app_length).
    specialize (U ltac:(lia)).
    unfold set_format. rewrite U. cbn [obind]. eexists. split; [reflexivity|].
    set (D := place 0 (std_dims f ++ user)).
    assert (SD : sorted D) by apply place_sorted.
    rewrite calculate_sizes_canon by (cbn [canon s_dims]; eapply F2_sorted; [apply calc_loop_same|exact SD]).
    cbn [canon s_format s_nextpos s_dims].
    rewrite (canon_core _ _ _ D) by apply calc_loop_same.
    split; [|split; [intros f' Hf'; injection Hf' as <-; reflexivity|intros Hx; exfalso; now apply (Hx f)]].
    assert (FD : map field_of D = std_fields f ++ cs).
    { unfold D. assert (P : forall l np0, map field_of (place np0 l) = map field_of l).
      { induction l as [|x l IH]; intros np0; cbn [place map]; [reflexivity|]. rewrite IH. reflexivity. }
      rewrite P, map_app, std_dims_fields, Euf, Ecus. reflexivity. }
    assert (LD : Z.of_nat (List.length D) <= 16 + (k + 1)).
    { rewrite <- (map_length field_of D), FD, app_length.
      assert (S16 : (List.length (std_fields f) <= 16)%nat) by (unfold std_fields; destruct (_ || _), (_ || _); cbn; lia).
      lia. }
    exists (Z.of_nat (List.length D)), D. cbn [canon s_format].
    split; [reflexivity|]. split; [exact SD|]. split.
    { unfold D. eapply Forall_impl; [|apply place_bounds]. cbv beta. rewrite place_length. intros; lia. }
    split; [lia|]. split; [now rewrite Ecus|]. rewrite Ecus.
    split. { rewrite map_app. pose proof (std_names_nodup f) as H1. pose proof (std_names_in f) as H2. revert H1 H2.
      generalize (map f_name (std_fields f)). induction l as [|x l IHl]; cbn [app]; intros H1 H2; [exact NDc|].
      inversion H1; subst. constructor.
      - intros Hin. apply in_app_or in Hin as [Hin|Hin]; [contradiction|]. apply (Hcn x Hin). apply H2. now left.
      - apply IHl; auto. intros n0 Hn0. apply H2. now right. }
    split; [exists cs; auto|]. split; [exact Ho|].
    rewrite app_length. lia.
Qed.

Lemma sinv_new fmt : 0 <= fmt <= 3 -> exists s, schema_new fmt = Ok s /\ sinv 0 s (std_fields fmt) /\ s_format s = fmt.
Proof.
  intros Hf. unfold schema_new.
  rewrite update_required_ok; [|exact Hf|constructor|intros n []|reflexivity].
  cbv zeta. cbn [s_dims s_format filter by_pos fold_right]. rewrite app_nil_r.
  eexists. split; [reflexivity|]. split; [|reflexivity].
  set (D := place 0 (std_dims fmt)).
  assert (FD : map field_of D = std_fields fmt).
  { unfold D. assert (P : forall l np0, map field_of (place np0 l) = map field_of l).
    { induction l as [|x l IH]; intros np0; cbn [place map]; [reflexivity|]. rewrite IH. reflexivity. }
    rewrite P. apply std_dims_fields. }
  assert (S16 : (List.length (std_fields fmt) <= 16)%nat) by (unfold std_fields; destruct (_ || _), (_ || _); cbn; lia).
  exists (Z.of_nat (List.length D)), D. cbn [canon s_format].
  split; [reflexivity|]. split; [apply place_sorted|].
  split. { unfold D. eapply Forall_impl; [|apply place_bounds]. cbv beta. rewrite place_length. intros; lia. }
  split. { rewrite <- (map_length field_of D), FD. lia. }
  split; [exact FD|]. split; [apply std_names_nodup|].
  split. { exists []. rewrite app_nil_r. split; [reflexivity|constructor]. }
  split; [exact Hf|]. lia.
Qed.

Lemma sinv_run os : forall k s fs, 0 <= k -> k + Z.of_nat (List.length os) + 100 < 2 ^ 30 -> sinv k s fs -> sops_ok fs os ->
  exists s', sops_run s os = Ok s' /\ sinv (k + Z.of_nat (List.length os)) s' (fold_left sop_spec os fs).
Proof.
  induction os as [|o os IH]; intros k s fs Hk Hl Hi Ho; cbn [sops_run fold_left List.length] in *.
  - exists s. split; [reflexivity|]. now rewrite Z.add_0_r.
  - destruct Ho as [Ho1 Ho2]. destruct (sinv_step k s fs o Hk ltac:(lia) Hi Ho1) as (s1 & E1 & I1 & _).
    rewrite E1. cbn [obind].
    destruct (IH (k + 1) s1 (sop_spec fs o)) as (s' & E' & I'); try lia; auto.
    exists s'. split; [exact E'|]. replace (k + Z.of_nat (S (List.length os))) with (k + 1 + Z.of_nat (List.length os)) by lia. exact I'.
Qed.

Lemma schema_history fmt os : 0 <= fmt <= 3 -> Z.of_nat (List.length os) < 2 ^ 29 -> sops_ok (std_fields fmt) os ->
  exists s0 s, schema_new fmt = Ok s0 /\ sops_run s0 os = Ok s /\ schema_shows s (fold_left sop_spec os (std_fields fmt)) /\
    NoDup (map f_name (fold_left sop_spec os (std_fields fmt))).
Proof.
  intros Hf Hl Ho. destruct (sinv_new fmt Hf) as (s0 & E0 & I0 & _).
  destruct (sinv_run os 0 s0 _ ltac:(lia) ltac:(lia) I0 Ho) as (s & E & I1).
  exists s0, s. split; [exact E0|]. split; [exact E|]. split; [eapply sinv_shows; exact I1|].
  destruct I1 as (np & ds & _ & _ & _ & _ & _ & Hn & _). exact Hn.
Qed.

(** Disjointness, from the start bits. *)
Lemma packed_aligned_custom fmt fs i f : std_prefix fmt fs -> nth_error fs i = Some f -> f_required f = false ->
  start_bit fs i mod 8 = 0 /\ f_bits f mod 8 = 0 /\ 0 < f_bits f.
Proof.
  intros (cs & -> & Hc) Hi Hr. destruct (std_packed fmt) as [_ T].
  destruct (Nat.ltb_spec i (List.length (std_fields fmt))) as [Hlt|Hge].
  - rewrite nth_error_app1 in Hi by exact Hlt. apply nth_error_In in Hi.
    pose proof (std_req fmt) as R. rewrite Forall_forall in R. specialize (R f Hi). congruence.
  - rewrite nth_error_app2 in Hi by lia. unfold start_bit. rewrite firstn_app, firstn_all2 by lia.
    rewrite total_bits_app. set (j := (i - List.length (std_fields fmt))%nat) in *.
    assert (A : forall j, total_bits (firstn j cs) mod 8 = 0).
    { clear - Hc. induction Hc as [|x l Hx Hl IH]; intros [|j]; try reflexivity.
      cbn [firstn]. change (total_bits (x :: firstn j l)) with (f_bits x + total_bits (firstn j l)).
      destruct Hx as (_ & _ & Hx & _). rewrite Zplus_mod, Hx, IH. reflexivity. }
    split; [rewrite Zplus_mod, T, A; reflexivity|].
    apply nth_error_In in Hi. rewrite Forall_forall in Hc. specialize (Hc f Hi). tauto.
Qed.

Lemma total_bits_nonneg fs : Forall (fun f => 0 < f_bits f) fs -> 0 <= total_bits fs.
Proof. induction 1; [reflexivity|]. change (total_bits (x :: l)) with (f_bits x + total_bits l). lia. Qed.

Lemma start_bit_step fs i j f : Forall (fun f => 0 < f_bits f) fs -> nth_error fs i = Some f -> (i < j)%nat ->
  start_bit fs i + f_bits f <= start_bit fs j.
Proof.
  intros Hp. revert i j. induction Hp as [|x l Hx Hl IH]; intros [|i] [|j] Hi Hij; try lia; try discriminate.
  - injection Hi as <-. rewrite start_bit_0, start_bit_S.
    assert (0 <= start_bit l j); [|lia]. apply total_bits_nonneg. clear - Hl. revert j.
    induction Hl; intros [|j]; cbn [firstn]; constructor; auto.
  - rewrite !start_bit_S. cbn [nth_error] in Hi. specialize (IH i j Hi ltac:(lia)). lia.
Qed.

Lemma packed_pos S0 fs : packed S0 fs -> Forall (fun f => 0 < f_bits f) fs.
Proof. revert S0. induction fs as [|f fs IH]; intros S0 H; cbn [packed] in H; constructor; [tauto|]. eapply IH. apply H. Qed.

Lemma nth_error_byteoff s fs i d : schema_shows s fs -> nth_error (by_pos (s_dims s)) i = Some d ->
  d_byteoff d = start_bit fs i / 8 /\ nth_error fs i = Some (field_of d).
Proof.
  intros (H1 & H2 & _) Hi. split.
  - assert (A : nth_error (map d_byteoff (by_pos (s_dims s))) i = Some (d_byteoff d)) by (now apply map_nth_error).
    rewrite H2 in A. assert (Hl : (i < List.length fs)%nat).
    { rewrite <- H1. unfold schema_fields. rewrite map_length. apply nth_error_Some. congruence. }
    rewrite nth_error_map in A. rewrite (nth_error_nth' _ 0%nat) in A by (now rewrite seq_length).
    rewrite seq_nth in A by exact Hl. cbn [option_map] in A. rewrite Nat.add_0_l in A. injection A as A. symmetry. exact A.
  - rewrite <- H1. unfold schema_fields. now apply map_nth_error.
Qed.

Lemma schema_disjoint fmt os s0 s : 0 <= fmt <= 3 -> Z.of_nat (List.length os) < 2 ^ 29 -> sops_ok (std_fields fmt) os ->
  schema_new fmt = Ok s0 -> sops_run s0 os = Ok s ->
  forall i j a b, nth_error (by_pos (s_dims s)) i = Some a -> nth_error (by_pos (s_dims s)) j = Some b -> (i < j)%nat ->
   (d_required a = false \/ d_required b = false) ->
   d_byteoff a + dim_bytesize a <= d_byteoff b.
Proof.
  intros Hf Hl Ho En Er i j a b Ha Hb Hij Hreq.
  destruct (sinv_new fmt Hf) as (s0' & E0 & I0 & _). rewrite En in E0. injection E0 as <-.
  destruct (sinv_run os 0 s0 _ ltac:(lia) ltac:(lia) I0 Ho) as (s' & E & I1).
  rewrite Er in E. injection E as <-.
  pose proof (sinv_shows _ _ _ I1) as Sh.
  destruct I1 as (np & ds & _ & _ & _ & _ & _ & _ & Pre & _).
  set (fs := fold_left sop_spec os (std_fields fmt)) in *.
  destruct (nth_error_byteoff _ _ _ _ Sh Ha) as [Oa Fa]. destruct (nth_error_byteoff _ _ _ _ Sh Hb) as [Ob Fb].
  pose proof (packed_pos _ _ (prefix_packed _ _ Pre)) as Pos.
  pose proof (start_bit_step fs i j _ Pos Fa Hij) as St. cbn [field_of f_bits] in St.
  rewrite Oa, Ob. unfold dim_bytesize.
  assert (Pa : 0 < d_bits a) by (rewrite Forall_forall in Pos; apply (Pos (field_of a)); eapply nth_error_In; exact Fa).
  destruct Hreq as [R|R].
  - destruct (packed_aligned_custom _ _ _ _ Pre Fa R) as (A1 & A2 & A3). cbn [field_of f_bits] in *.
    rewrite A2. cbn [Z.ltb Z.compare].
    pose proof (Z.div_mod (d_bits a) 8). pose proof (Z.div_mod (start_bit fs i) 8).
    apply Z.div_le_lower_bound; lia.
  - destruct (packed_aligned_custom _ _ _ _ Pre Fb R) as (A1 & A2 & A3). cbn [field_of f_bits] in *.
    pose proof (Z.div_mod (start_bit fs j) 8). pose proof (Z.div_mod (start_bit fs i) 8).
    pose proof (Z.mod_pos_bound (start_bit fs i) 8). pose proof (Z.mod_pos_bound (d_bits a) 8).
    pose proof (Z.div_mod (d_bits a) 8).
    destruct (Z.ltb_spec 0 (d_bits a mod 8)), (Z.ltb_spec 8 (d_bits a)); lia.
Qed.

(** ** lookup by name *)
Lemma insert_pos_in d l x : In x (insert_pos d l) <-> x = d \/ In x l.
Proof.
  induction l as [|y l IH]; cbn [insert_pos In]; [intuition|].
  destruct (d_pos d <? d_pos y); cbn [In]; [intuition|]. rewrite IH. intuition.
Qed.
Lemma by_pos_in l x : In x (by_pos l) <-> In x l.
Proof. unfold by_pos. induction l as [|y l IH]; cbn [fold_right In]; [tauto|]. rewrite insert_pos_in, IH. intuition. Qed.

Lemma find_name_some c n : In n (map d_name c) -> exists d, find_name c n = Some d /\ In d c /\ d_name d = n.
Proof.
  unfold find_name. induction c as [|x c IH]; cbn [map In find]; [tauto|]. intros H.
  destruct (String.eqb_spec (d_name x) n) as [E|E]; [exists x; auto|].
  destruct H as [H|H]; [congruence|]. destruct (IH H) as (d & E1 & E2 & E3). exists d. auto.
Qed.

Lemma shows_lookup s fs i f : schema_shows s fs -> NoDup (map f_name fs) -> nth_error fs i = Some f ->
  exists d, get_dimension s (f_name f) = Some d /\ field_of d = f /\ d_byteoff d = start_bit fs i / 8.
Proof.
  intros Sh Hn Hi. pose proof Sh as (H1 & _).
  assert (Hi' := Hi). rewrite <- H1 in Hi'. unfold schema_fields in Hi'. rewrite nth_error_map in Hi'.
  destruct (nth_error (by_pos (s_dims s)) i) as [d|] eqn:Ed; [|discriminate]. injection Hi' as Ef.
  destruct (nth_error_byteoff _ _ _ _ Sh Ed) as [Ob _].
  assert (Hin : In (f_name f) (map d_name (s_dims s))).
  { rewrite <- Ef. cbn. apply in_map. apply by_pos_in. eapply nth_error_In; exact Ed. }
  destruct (find_name_some _ _ Hin) as (d' & E1 & E2 & E3).
  assert (d' = d); [|subst d'; exists d; auto].
  apply by_pos_in in E2. apply In_nth_error in E2 as (j & Ej).
  assert (Eij : j = i).
  { assert (Nj : nth_error (map f_name fs) j = Some (f_name f)).
    { rewrite <- H1. unfold schema_fields. rewrite map_map. apply (map_nth_error (fun d => f_name (field_of d))) in Ej. rewrite Ej. cbn [field_of f_name]. now rewrite E3. }
    assert (Ni : nth_error (map f_name fs) i = Some (f_name f)) by (now apply map_nth_error).
    apply (proj1 (NoDup_nth_error (map f_name fs)) Hn); [apply nth_error_Some; congruence|congruence]. }
  congruence.
Qed.

Lemma fold_sop_format os fmt fs : exists cs, fold_left sop_spec (os ++ [SOFormat fmt]) fs = std_fields fmt ++ cs /\
   cs = custom_fields (fold_left sop_spec os fs).
Proof. rewrite fold_left_app. cbn [fold_left sop_spec]. eauto. Qed.

Lemma start_bit_app a b i : (i < List.length a)%nat -> start_bit (a ++ b) i = start_bit a i.
Proof. intros H. unfold start_bit. rewrite firstn_app. replace (i - List.length a)%nat with 0%nat by lia. cbn [firstn]. now rewrite app_nil_r. Qed.

Lemma sops_ok_app a : forall fs b, sops_ok fs (a ++ b) <-> sops_ok fs a /\ sops_ok (fold_left sop_spec a fs) b.
Proof. induction a as [|o a IH]; intros fs b; cbn [app sops_ok fold_left]; [tauto|]. rewrite IH. tauto. Qed.

Lemma total_std fmt : 0 <= fmt <= 3 -> total_bits (std_fields fmt) = 8 * std_length fmt.
Proof. intros H. assert (Hc : fmt = 0 \/ fmt = 1 \/ fmt = 2 \/ fmt = 3) by lia. destruct Hc as [E|[E|[E|E]]]; subst; reflexivity. Qed.

Lemma required_of_custom l : filter f_required (custom_fields l) = [].
Proof. unfold custom_fields. induction l as [|f l IH]; cbn [filter]; [reflexivity|]. destruct (f_required f) eqn:E; cbn [negb filter]; [exact IH|]. now rewrite E. Qed.

Lemma required_std fmt : filter f_required (std_fields fmt) = std_fields fmt.
Proof. pose proof (std_req fmt) as R. induction R as [|f l Hf R IH]; cbn [filter]; [reflexivity|]. now rewrite Hf, IH. Qed.

Lemma std_layout f0 fmt os : 0 <= f0 <= 3 -> 0 <= fmt <= 3 -> Z.of_nat (List.length os) < 2 ^ 28 -> sops_ok (std_fields f0) os ->
  exists s0 s, schema_new f0 = Ok s0 /\ sops_run s0 (os ++ [SOFormat fmt]) = Ok s /\
    s_format s = fmt /\
    schema_base_bytes s = std_length fmt /\
    schema_bytes s = (8 * std_length fmt + total_bits (custom_fields (fold_left sop_spec os (std_fields f0)))) mod 2 ^ 64 / 8 /\
    forall name off, In (name, off) (std_offsets fmt) ->
      exists d, get_dimension s name = Some d /\ d_byteoff d = off /\ d_required d = true.
Proof.
  intros H0 Hf Hl Ho.
  assert (Ho' : sops_ok (std_fields f0) (os ++ [SOFormat fmt])) by (apply sops_ok_app; split; [exact Ho|cbn; auto]).
  destruct (sinv_new f0 H0) as (s0 & E0 & I0 & _).
  assert (Hl' : Z.of_nat (List.length (os ++ [SOFormat fmt])) < 2 ^ 29) by (rewrite app_length; cbn; lia).
  destruct (sinv_run os 0 s0 _ ltac:(lia) ltac:(lia) I0 Ho) as (s1 & E1 & I1).
  destruct (sinv_step (0 + Z.of_nat (List.length os)) s1 _ (SOFormat fmt) ltac:(lia) ltac:(lia) I1 Hf) as (s & E2 & I2 & F2 & _).
  assert (Er : sops_run s0 (os ++ [SOFormat fmt]) = Ok s).
  { clear - E1 E2. revert s0 E1. induction os as [|o os IH]; intros s0 E1; cbn [app sops_run] in *.
    - injection E1 as ->. rewrite E2. reflexivity.
    - destruct (sop_run s0 o); cbn [obind] in *; try discriminate. now apply IH. }
  exists s0, s. split; [exact E0|]. split; [exact Er|]. split; [now apply F2|].
  pose proof (sinv_shows _ _ _ I2) as Sh. cbn [sop_spec] in Sh.
  destruct I2 as (np & ds & _ & _ & _ & _ & _ & Hn & _). cbn [sop_spec] in Hn.
  set (cs := custom_fields (fold_left sop_spec os (std_fields f0))) in *.
  destruct Sh as (S1 & S2 & S3 & S4). pose proof (conj S1 (conj S2 (conj S3 S4))) as Sh.
  split; [|split].
  - unfold schema_base_bytes. rewrite S4, filter_app, required_std. unfold cs. rewrite required_of_custom, app_nil_r, total_std by exact Hf.
    assert (Hc : fmt = 0 \/ fmt = 1 \/ fmt = 2 \/ fmt = 3) by lia. destruct Hc as [E|[E|[E|E]]]; subst fmt; reflexivity.
  - unfold schema_bytes. rewrite S3, total_bits_app, total_std by exact Hf. reflexivity.
  - intros name off Hin.
    assert (T : forall p, In p (std_offsets fmt) -> exists i f, nth_error (std_fields fmt) i = Some f /\ f_name f = fst p /\
        start_bit (std_fields fmt) i / 8 = snd p /\ f_required f = true).
    { assert (Hc : fmt = 0 \/ fmt = 1 \/ fmt = 2 \/ fmt = 3) by lia. clear.
      assert (Bt : forall n p fm, (match nth_error (std_fields fm) n with
                 | Some f => String.eqb (f_name f) (fst p) && (start_bit (std_fields fm) n / 8 =? snd p) && f_required f | None => false end) = true ->
                 exists i f, nth_error (std_fields fm) i = Some f /\ f_name f = fst p /\ start_bit (std_fields fm) i / 8 = snd p /\ f_required f = true).
      { intros n p fm H. destruct (nth_error (std_fields fm) n) as [f|] eqn:E; [|discriminate].
        apply andb_true_iff in H as [H H3]. apply andb_true_iff in H as [H1 H2]. exists n, f. split; [exact E|].
        split; [now apply String.eqb_eq|]. split; [now apply Z.eqb_eq|exact H3]. }
      intros p Hp. unfold std_offsets in Hp.
      destruct (fmt =? 1) eqn:E1, (fmt =? 2) eqn:E2, (fmt =? 3) eqn:E3; try lia;
      [assert (fmt = 1) by lia|assert (fmt = 2) by lia|assert (fmt = 3) by lia|
       assert (E : std_fields fmt = std_fields 0) by (unfold std_fields; rewrite E1, E2, E3; reflexivity); rewrite E]; try subst fmt;
      cbn [orb app In] in Hp;
      repeat match type of Hp with _ \/ _ => destruct Hp as [Hp|Hp] end; try contradiction; subst p;
      first [apply (Bt 0%nat); vm_compute; reflexivity|apply (Bt 1%nat); vm_compute; reflexivity|apply (Bt 2%nat); vm_compute; reflexivity
       |apply (Bt 3%nat); vm_compute; reflexivity|apply (Bt 4%nat); vm_compute; reflexivity|apply (Bt 5%nat); vm_compute; reflexivity
       |apply (Bt 6%nat); vm_compute; reflexivity|apply (Bt 7%nat); vm_compute; reflexivity|apply (Bt 8%nat); vm_compute; reflexivity
       |apply (Bt 9%nat); vm_compute; reflexivity|apply (Bt 10%nat); vm_compute; reflexivity|apply (Bt 11%nat); vm_compute; reflexivity
       |apply (Bt 12%nat); vm_compute; reflexivity|apply (Bt 13%nat); vm_compute; reflexivity|apply (Bt 14%nat); vm_compute; reflexivity
       |apply (Bt 15%nat); vm_compute; reflexivity]. }
    destruct (T _ Hin) as (i & f & N1 & N2 & N3 & N4). cbn [fst snd] in *.
    assert (Hi : (i < List.length (std_fields fmt))%nat) by (apply nth_error_Some; congruence).
    destruct (shows_lookup s _ i f Sh Hn) as (d & G & Fd & Od).
    { rewrite nth_error_app1 by exact Hi. exact N1. }
    exists d. rewrite <- N2. split; [exact G|]. split; [rewrite Od, start_bit_app by exact Hi; exact N3|].
    rewrite <- N4, <- Fd. reflexivity.
Qed.

(** ** rejected formats *)
Lemma update_required_bad s fmt : ~ (0 <= fmt <= 3) ->
  update_required s fmt = (mkSchema (s_format s) 12 160 0 (calc_loop 0 0 (place 0 req0)), Throw ERuntime).
Proof.
  intros H. unfold update_required. rewrite record0_state.
  destruct (Z.eqb_spec fmt 3), (Z.eqb_spec fmt 2), (Z.eqb_spec fmt 1), (Z.eqb_spec fmt 0); try lia. reflexivity.
Qed.

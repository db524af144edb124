(** Loading the property tree of a schema. *)
From Coq Require Import ZArith NArith List Bool String Ascii Decimal DecimalString DecimalN Lia Sorting.
From Coq Require Import ZifyBool ZifyNat.
Import ListNotations.
From Verif Require Import Outcome Bytes CStr Vlr_Model Schema_Model Schema_Spec Schema_Api Schema_Proofs Reader_Schema Ptree_Model.
Local Open Scope Z_scope.

(** ** numbers *)
Fixpoint zval (v : Z) (u : uint) : Z :=
  match u with
  | Nil => v
  | D0 u => zval (10 * v + 0) u | D1 u => zval (10 * v + 1) u | D2 u => zval (10 * v + 2) u | D3 u => zval (10 * v + 3) u
  | D4 u => zval (10 * v + 4) u | D5 u => zval (10 * v + 5) u | D6 u => zval (10 * v + 6) u | D7 u => zval (10 * v + 7) u
  | D8 u => zval (10 * v + 8) u | D9 u => zval (10 * v + 9) u
  end.
Definition some_digit (u : uint) : bool := match u with Nil => false | _ => true end.

Lemma digits_uint u : forall v any, digits v any (NilEmpty.string_of_uint u) = (zval v u, any || some_digit u, EmptyString).
Proof.
  induction u as [|u IH|u IH|u IH|u IH|u IH|u IH|u IH|u IH|u IH|u IH]; intros v any; cbn [NilEmpty.string_of_uint digits zval some_digit];
    [now rewrite orb_false_r|..];
    (match goal with |- context [is_digit ?c] => change (is_digit c) with true end; cbn iota; rewrite IH; cbn [orb]; rewrite orb_true_r; reflexivity).
Qed.
Lemma zval_acc u : forall p, zval (Zpos p) u = Zpos (Pos.of_uint_acc u p).
Proof.
  induction u as [|u IH|u IH|u IH|u IH|u IH|u IH|u IH|u IH|u IH|u IH]; intros p; cbn [zval Pos.of_uint_acc]; [reflexivity|..];
    rewrite <- IH; f_equal; lia.
Qed.
Lemma zval_of u : zval 0 u = Z.of_N (N.of_uint u).
Proof.
  induction u as [|u IH|u IH|u IH|u IH|u IH|u IH|u IH|u IH|u IH|u IH]; cbn [zval N.of_uint Pos.of_uint]; [reflexivity|exact IH|..];
    change (10 * 0 + ?k) with k; apply zval_acc.
Qed.
Lemma to_uint_some n : some_digit (N.to_uint n) = true.
Proof.
  destruct (N.to_uint n) eqn:E; try reflexivity. exfalso.
  destruct n as [|p]; [discriminate|]. pose proof (DecimalN.Unsigned.of_to (Npos p)) as H. rewrite E in H. discriminate.
Qed.

Lemma read_uint_dec w n : 0 <= n < 2 ^ w -> read_uint w (dec n) = Some n.
Proof.
  intros H. unfold dec. set (u := N.to_uint (Z.to_N n)).
  assert (S1 : some_digit u = true) by apply to_uint_some.
  assert (E : zval 0 u = n) by (unfold u; rewrite zval_of, DecimalN.Unsigned.of_to; lia).
  assert (D : digits 0 false (NilEmpty.string_of_uint u) = (n, true, EmptyString)) by (now rewrite digits_uint, E, S1).
  unfold read_uint.
  assert (Hd : exists c r, NilEmpty.string_of_uint u = String c r /\ is_space c = false /\ Ascii.eqb c "-" = false /\ Ascii.eqb c "+" = false).
  { destruct u; try discriminate S1; cbn [NilEmpty.string_of_uint]; eexists _, _; split; reflexivity || (split; [reflexivity|split; reflexivity]). }
  destruct Hd as (c & r & Ec & H1 & H2 & H3). rewrite Ec in *. cbn [skip_ws]. rewrite H1, H2, H3, D. cbn [negb skip_ws].
  destruct (Z.leb_spec (2 ^ w) n); [lia|reflexivity].
Qed.
Lemma read_bool_bit b : read_bool (bit b) = Some b.
Proof. destruct b; reflexivity. Qed.

(** ** dimensions *)
Definition loaded (d : dim) : dim :=
  mkDim (d_name d) (d_bits d) (d_required d) (d_active d) false (d_signed d) (d_integer d) (d_pos d) 0 0.

Lemma dim_tree_eq d : dim_tree d = Node "" [("name"%string, leaf (d_name d)); ("description"%string, leaf "");
  ("position"%string, leaf (dec (d_pos d))); ("active"%string, leaf (bit (d_active d))); ("size"%string, leaf (dec (d_bits d)));
  ("integer"%string, leaf (bit (d_integer d))); ("signed"%string, leaf (bit (d_signed d))); ("required"%string, leaf (bit (d_required d)));
  ("byteoffset"%string, leaf (dec (d_byteoff d))); ("bitoffset"%string, leaf (dec (d_bitoff d)));
  ("bytesize"%string, leaf (dec (dim_bytesize d)))].
Proof. reflexivity. Qed.

Lemma load_dim_ok d : 0 < d_bits d < 2 ^ 32 -> 0 <= d_pos d < 2 ^ 32 -> load_dim (dim_tree d) = Ok (loaded d).
Proof.
  intros Hb Hp. rewrite dim_tree_eq. unfold load_dim, get_uint, get_string, get_bool.
  cbn -[read_uint read_bool dec bit Z.pow dim_new].
  rewrite !read_uint_dec by lia. cbn -[read_uint read_bool dec bit Z.pow dim_new]. rewrite !read_bool_bit.
  cbn -[read_uint read_bool dec bit Z.pow dim_new]. unfold dim_new.
  destruct (Z.eqb_spec (d_bits d) 0); [lia|]. reflexivity.
Qed.
(** a dimension tree either loads or raises std::runtime_error *)
Lemma load_dim_throws d : load_dim (dim_tree d) = Throw ERuntime \/ exists x, load_dim (dim_tree d) = Ok x.
Proof.
  rewrite dim_tree_eq. unfold load_dim, get_uint, get_string, get_bool.
  cbn -[read_uint read_bool dec bit Z.pow dim_new].
  destruct (read_uint 32 (dec (d_bits d))) as [b|]; cbn -[read_uint read_bool dec bit Z.pow dim_new]; [|now left].
  rewrite !read_bool_bit. cbn -[read_uint read_bool dec bit Z.pow dim_new].
  destruct (read_uint 32 (dec (d_pos d))) as [p|]; cbn -[read_uint read_bool dec bit Z.pow dim_new]; [|now left].
  unfold dim_new. destruct (b =? 0); [now left|right; eexists; reflexivity].
Qed.

Definition kids_of (ds : list dim) : list (string * ptree) := map (fun d => ("dimension"%string, dim_tree d)) ds.

Lemma load_dims_throws ds : forall c, load_dims (kids_of ds) c = Throw ERuntime \/ exists x, load_dims (kids_of ds) c = Ok x.
Proof.
  induction ds as [|d ds IH]; intros c; cbn [kids_of map load_dims]; [right; eauto|].
  destruct (load_dim_throws d) as [->|(x & ->)]; cbn [obind]; [now left|apply IH].
Qed.

Lemma mi_insert_later c d : sorted (c ++ [d]) -> ~ In (d_name d) (map d_name c) -> mi_insert c d = c ++ [d].
Proof.
  intros Hs Hn. apply mi_insert_fresh; [exact Hn|].
  clear Hn. induction c as [|x c IH]; [constructor|]. cbn [app] in Hs. inversion Hs as [|? ? Hs1 Hf]; subst.
  constructor; [|auto]. apply Forall_app in Hf. destruct Hf as (_ & Hf). inversion Hf as [|? ? H1 ?]; subst. exact H1.
Qed.
Lemma load_dims_ok ds : forall c, Forall (fun d => 0 < d_bits d < 2 ^ 32 /\ 0 <= d_pos d < 2 ^ 32) ds ->
  sorted (c ++ map loaded ds) -> NoDup (map d_name (c ++ map loaded ds)) ->
  load_dims (kids_of ds) c = Ok (c ++ map loaded ds).
Proof.
  induction ds as [|d ds IH]; intros c HB Hs Hn; cbn [kids_of map load_dims].
  - now rewrite app_nil_r.
  - inversion HB as [|? ? (H1 & H2) HB']; subst. rewrite load_dim_ok by assumption. cbn [obind].
    assert (E : mi_insert c (loaded d) = c ++ [loaded d]).
    { apply mi_insert_later.
      - revert Hs. cbn [map]. change (c ++ loaded d :: map loaded ds) with (c ++ [loaded d] ++ map loaded ds). rewrite app_assoc.
        generalize (c ++ [loaded d]) (map loaded ds). intros l m. induction l as [|x l IHl]; intros Hs; [constructor|].
        inversion Hs as [|? ? Hs1 Hf]; subst. constructor; [exact (IHl Hs1)|]. apply Forall_app in Hf. exact (proj1 Hf).
      - cbn [map] in Hn. rewrite map_app in Hn. cbn [map] in Hn. apply NoDup_remove_2 in Hn. intros X. apply Hn, in_or_app. auto. }
    rewrite E. fold (kids_of ds). rewrite IH; [|exact HB'|now rewrite <- app_assoc|now rewrite <- app_assoc].
    now rewrite <- app_assoc.
Qed.

(** ** the tree *)
Lemma add_dims ds : forall d0 rest, fold_left (fun t d => add_child ["LASSchema"; "dimensions"; "dimension"]%string (dim_tree d) t) ds
    (Node "" [("LASSchema"%string, Node "" [("dimensions"%string, Node d0 rest)])]) =
  Node "" [("LASSchema"%string, Node "" [("dimensions"%string, Node d0 (rest ++ kids_of ds))])].
Proof.
  induction ds as [|d ds IH]; intros d0 rest; cbn [fold_left].
  - cbn [kids_of map]. now rewrite app_nil_r.
  - change (add_child _ (dim_tree d) _) with (Node "" [("LASSchema"%string, Node "" [("dimensions"%string, Node d0 (rest ++ [("dimension"%string, dim_tree d)]))])]).
    rewrite IH. cbn [kids_of map]. rewrite <- app_assoc. reflexivity.
Qed.
Lemma schema_tree_eq ver s : by_pos (s_dims s) <> [] -> schema_tree_with ver s =
  Node "" [("LASSchema"%string, Node "" [("dimensions"%string, Node "" (kids_of (by_pos (s_dims s))));
    ("version"%string, leaf ver); ("liblas"%string, leaf liblas_version); ("formatid"%string, leaf (dec (s_format s)))])].
Proof.
  intros H. unfold schema_tree_with. destruct (by_pos (s_dims s)) as [|d ds]; [congruence|]. cbn [fold_left].
  change (add_child _ (dim_tree d) pt_empty) with (Node "" [("LASSchema"%string, Node "" [("dimensions"%string, Node "" [("dimension"%string, dim_tree d)])])]).
  rewrite add_dims. reflexivity.
Qed.
Lemma schema_tree_nil ver s : by_pos (s_dims s) = [] -> load_schema (schema_tree_with ver s) = Throw ERuntime.
Proof. intros H. unfold schema_tree_with. rewrite H. reflexivity. Qed.

(** no schema's own tree loads: the version is written as "1.0" and read as an integer *)
Lemma own_tree_fails s : load_schema (schema_tree s) = Throw ERuntime.
Proof.
  unfold schema_tree. destruct (by_pos (s_dims s)) as [|d ds] eqn:E; [now apply schema_tree_nil|].
  rewrite schema_tree_eq by congruence. unfold load_schema.
  change (get_child ["LASSchema"; "dimensions"]%string _) with (Ok (Node "" (kids_of (by_pos (s_dims s))))). cbn [obind pt_kids].
  destruct (load_dims_throws (by_pos (s_dims s)) []) as [->|(x & ->)]; cbn [obind]; [reflexivity|].
  unfold get_uint at 1. change (get_child ["LASSchema"; "formatid"]%string _) with (Ok (leaf (dec (s_format s)))). cbn [obind].
  destruct (read_uint 32 (pt_data (leaf (dec (s_format s))))); [|reflexivity]. cbn [obind]. reflexivity.
Qed.

(** ... and with a version that is a number, the layout loads *)
Lemma field_of_loaded d : field_of (loaded d) = field_of d.
Proof. reflexivity. Qed.
Lemma loaded_core_fields l : map field_of (map loaded l) = map field_of l.
Proof. rewrite map_map. apply map_ext. intros d. apply field_of_loaded. Qed.

Lemma numeric_tree_loads k s fs ver v : sinv k s fs -> Forall (fun f => f_bits f < 2 ^ 32) fs ->
  Forall (fun d => in_unsigned 32 (d_pos d)) (s_dims s) -> read_uint 16 ver = Some v ->
  exists s', load_schema (schema_tree_with ver s) = Ok s' /\ schema_shows s' fs /\ s_format s' = s_format s /\
    map (fun d => (d_name d, d_active d, d_signed d, d_integer d, d_pos d)) (by_pos (s_dims s')) =
    map (fun d => (d_name d, d_active d, d_signed d, d_integer d, d_pos d)) (by_pos (s_dims s)).
Proof.
  intros Hi Hb Hp Hv. pose proof (sinv_shows _ _ _ Hi) as SH.
  destruct Hi as (np & ds & Es & Hs & Hbd & Hnp & Ef & Hn & Hpre & Hfmt & Hlen).
  assert (Sc : sorted (calc_loop 0 0 ds)) by (eapply F2_sorted; [apply calc_loop_same|exact Hs]).
  assert (SD : s_dims s = calc_loop 0 0 ds) by (rewrite Es; reflexivity).
  assert (BP : by_pos (s_dims s) = calc_loop 0 0 ds) by (rewrite SD; apply by_pos_sorted, Sc).
  rewrite SD in Hp.
  set (L := calc_loop 0 0 ds) in *.
  assert (FL : map field_of L = fs).
  { rewrite <- Ef. apply F2_map; [|apply calc_loop_same]. intros a b (H1 & H2 & H3 & _). unfold field_of. congruence. }
  assert (NE : by_pos (s_dims s) <> []).
  { rewrite BP. intros X. rewrite X in FL. cbn [map] in FL. destruct Hpre as (cs & Ecs & _). rewrite <- FL in Ecs. discriminate. }
  rewrite (schema_tree_eq ver s NE), BP. unfold load_schema.
  change (get_child ["LASSchema"; "dimensions"]%string _) with (Ok (Node "" (kids_of L))). cbn [obind pt_kids].
  assert (Ss : sorted (map loaded L)).
  { clear -Sc. induction Sc as [|x l H IH Hf]; cbn [map]; constructor; [exact IH|]. apply Forall_map. exact Hf. }
  pose proof (packed_pos 0 fs (prefix_packed _ _ Hpre)) as Hpos.
  rewrite load_dims_ok.
  2:{ apply Forall_forall. intros d Hd. rewrite Forall_forall in Hp, Hb, Hpos.
      assert (Hf : In (field_of d) fs) by (rewrite <- FL; now apply in_map).
      specialize (Hb _ Hf). specialize (Hpos _ Hf). specialize (Hp _ Hd). unfold in_unsigned in Hp. cbn [field_of f_bits] in *. lia. }
  2:{ exact Ss. }
  2:{ change (NoDup (map d_name (map loaded L))). rewrite map_map. change (fun x => d_name (loaded x)) with d_name. rewrite <- names_map, FL. exact Hn. }
  cbn [obind app].
  unfold get_uint at 1. change (get_child ["LASSchema"; "formatid"]%string _) with (Ok (leaf (dec (s_format s)))). cbn [obind pt_data leaf].
  rewrite read_uint_dec by lia. cbn [obind].
  unfold get_uint. change (get_child ["LASSchema"; "version"]%string _) with (Ok (leaf ver)). cbn [obind pt_data leaf]. rewrite Hv. cbn [obind].
  assert (SF : exists s1, set_format (mkSchema 0 0 0 0 []) (s_format s) = (s1, Ok tt) /\ s_format s1 = s_format s).
  { unfold set_format. pose proof (update_required_ok (mkSchema 0 0 0 0 []) (s_format s) Hfmt) as U. cbv zeta in U.
    change (by_pos (filter (fun d => negb (d_required d)) (s_dims (mkSchema 0 0 0 0 [])))) with (@nil dim) in U.
    rewrite U; [|constructor|intros ? []|cbn; lia]. eexists. split; reflexivity. }
  destruct SF as (s1 & -> & F1).
  eexists. split; [reflexivity|].
  rewrite calculate_sizes_canon by exact Ss. cbn [s_format s_nextpos s_dims].
  split; [rewrite <- FL at 1; rewrite <- loaded_core_fields; apply canon_shows; [exact Ss|]; rewrite loaded_core_fields, FL; now apply (prefix_packed (s_format s))|].
  split; [exact F1|].
  cbn [canon s_dims]. rewrite by_pos_sorted by (eapply F2_sorted; [apply calc_loop_same|exact Ss]).
  eapply eq_trans; [apply (F2_map (fun d => (d_name d, d_active d, d_signed d, d_integer d, d_pos d)) _ (map loaded L))|].
  3:{ rewrite map_map. reflexivity. }
  - intros a b (H1 & H2 & H3 & H4 & H5 & H6 & H7 & H8). congruence.
  - apply calc_loop_same.
Qed.

(** ** positions stay unsigned 32-bit numbers *)
Definition posok (s : schema) : Prop := in_unsigned 32 (s_nextpos s) /\ Forall (fun d => in_unsigned 32 (d_pos d)) (s_dims s).

Lemma calc_sizes_pos s : posok s -> posok (calculate_sizes s).
Proof.
  intros (H1 & H2). split; [exact H1|]. unfold calculate_sizes. cbn [s_dims]. apply Forall_map.
  eapply Forall_impl; [|exact H2]. cbv beta. intros d Hd. unfold put_back.
  destruct (find _ _) as [x|] eqn:E; [|exact Hd]. apply find_some in E as (_ & E). rewrite Z.eqb_eq in E. now rewrite E.
Qed.
Lemma add_dim_pos s d : posok s -> in_unsigned 32 (d_pos d) -> posok (add_dimension s d).
Proof.
  intros (H1 & H2) Hd. unfold add_dimension. apply calc_sizes_pos. split; cbn [s_nextpos s_dims].
  - unfold in_unsigned. apply Z.mod_pos_bound. lia.
  - destruct (find_name _ _).
    + unfold mi_replace. destruct (existsb _ _); [exact H2|]. apply Forall_map. eapply Forall_impl; [|exact H2]. cbv beta.
      intros x Hx. destruct (String.eqb _ _); assumption.
    + unfold mi_insert. destruct (existsb _ _); [exact H2|]. apply Forall_app. split; [exact H2|]. constructor; [exact H1|constructor].
Qed.
Lemma add_dims_pos l : forall s, posok s -> Forall (fun d => in_unsigned 32 (d_pos d)) l -> posok (fold_left add_dimension l s).
Proof.
  induction l as [|d l IH]; intros s H Hl; cbn [fold_left]; [exact H|]. inversion Hl; subst. apply IH; [|assumption]. now apply add_dim_pos.
Qed.
Lemma zero_pos l : forallb (fun d => d_pos d =? 0) l = true -> Forall (fun d => in_unsigned 32 (d_pos d)) l.
Proof.
  rewrite forallb_forall, Forall_forall. intros H x Hx. specialize (H x Hx). rewrite Z.eqb_eq in H. rewrite H. unfold in_unsigned. lia.
Qed.
Lemma update_required_pos s fmt : posok s -> posok (fst (update_required s fmt)).
Proof.
  intros (H1 & H2). unfold update_required. set (user := by_pos _). 
  assert (HU : Forall (fun d => in_unsigned 32 (d_pos d)) user).
  { apply Forall_forall. intros x Hx. apply (proj1 (by_pos_in _ x)) in Hx. apply filter_In in Hx. rewrite Forall_forall in H2. now apply H2. }
  clearbody user.
  assert (P0 : posok (add_record0 (mkSchema (s_format s) 0 (s_bits s) (s_basebits s) []))).
  { unfold add_record0. set (s1 := fold_left _ _ _). assert (P1 : posok s1).
    { apply add_dims_pos; [|apply zero_pos; reflexivity]. split; [cbn; unfold in_unsigned; lia|constructor]. }
    destruct P1 as (A & B). split; [exact A|]. cbn [map_dims s_dims]. apply Forall_map. exact B. }
  set (s1 := add_record0 _) in *. clearbody s1.
  assert (FIN : forall s2, posok s2 -> posok (calculate_sizes (fold_left add_dimension user s2))).
  { intros s2 P2. apply calc_sizes_pos, add_dims_pos; assumption. }
  assert (PT : posok (add_time s1)) by (apply add_dims_pos; [exact P0|apply zero_pos; reflexivity]).
  assert (PC : forall x, posok x -> posok (add_color x)) by (intros x Px; apply add_dims_pos; [exact Px|apply zero_pos; reflexivity]).
  destruct (fmt =? 3); [apply FIN, PC, PT|]. destruct (fmt =? 2); [apply FIN, PC, P0|]. destruct (fmt =? 1); [apply FIN, PT|].
  destruct (fmt =? 0); [apply FIN, P0|exact P0].
Qed.
Lemma schema_new_positions fmt s : schema_new fmt = Ok s -> posok s.
Proof.
  unfold schema_new. pose proof (update_required_pos (mkSchema fmt 0 0 0 []) fmt) as H.
  destruct (update_required _ fmt) as [s1 [u|e|u]]; intros E; try discriminate. injection E as <-. apply H.
  split; [cbn; unfold in_unsigned; lia|constructor].
Qed.
Lemma sop_pos s o s' : posok s -> sop_run s o = Ok s' -> posok s'.
Proof.
  intros H E. destruct o as [n b num sg int|n|f]; cbn [sop_run] in E.
  - injection E as <-. apply add_dim_pos; [exact H|]. cbn. unfold in_unsigned. lia.
  - destruct (get_dimension s n); [|discriminate]. injection E as <-. apply calc_sizes_pos. destruct H as (A & B). split; [exact A|].
    cbn [s_dims]. unfold mi_erase. apply Forall_forall. intros x Hx. apply filter_In in Hx. rewrite Forall_forall in B. now apply B.
  - unfold set_format in E. pose proof (update_required_pos s f H) as U. destruct (update_required s f) as [s1 [u|e|u]]; cbn [obind fst] in *; try discriminate.
    injection E as <-. apply calc_sizes_pos. exact U.
Qed.
Lemma sops_positions os : forall s0 s, posok s0 -> sops_run s0 os = Ok s -> Forall (fun d => in_unsigned 32 (d_pos d)) (s_dims s).
Proof.
  induction os as [|o os IH]; intros s0 s H E; cbn [sops_run] in E.
  - injection E as <-. apply H.
  - destruct (sop_run s0 o) as [s1|e|u] eqn:E1; cbn [obind] in E; try discriminate. eapply IH; [|exact E]. eapply sop_pos; [exact H|exact E1].
Qed.

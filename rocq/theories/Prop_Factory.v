(** C80: readers made by the factory are the readers made directly, and the type of
    a file is told from the end of its name. *)
From Coq Require Import ZArith List Bool Lia String.
Import ListNotations.
From Verif Require Import Outcome Bytes Float64 CStr Schema_Model Header_Model Vlr_Model Point_Model Stream_Model Stream_Proofs Reader_Model Cached_Model IO_Spec Reader_Spec Reader_Schema Reader_Open Prop_Reader
  Reader_Hist Writer_Append IO_Samples Prop_Hdropt4 Factory_Model.
Local Open Scope Z_scope.
Local Notation length := List.length (only parsing).

(** *** what a header reader leaves of the stream *)
Definition flagged (s : istream) : Prop := is_fail s = true -> is_eof s = true.
Definition from (s s' : istream) : Prop := is_data s' = is_data s /\ flagged s'.
Lemma is_read_from s n : is_fail s = false -> is_data (snd (is_read s n)) = is_data s /\ flagged (snd (is_read s n)).
Proof.
  intros N. unfold is_read, flagged. rewrite N, orb_false_r. destruct (is_eof s) eqn:Q; cbn [snd is_data is_fail is_eof]; [auto|].
  destruct (Nat.ltb _ _); cbn; auto.
Qed.
Lemma read_n_from s old bs s' : read_n s old = Ok (bs, s') -> from s s'.
Proof.
  unfold read_n. destruct (is_fail s) eqn:N; [discriminate|]. pose proof (is_read_from s (length old) N) as F. destruct (is_read s (length old)) as (b & t).
  cbn [snd] in F. intros E. apply Writer_Append.Ok_inj in E. apply pair_equal_spec in E as (_ & <-). exact F.
Qed.
Lemma read_uint_from s n o v s' : read_uint s n o = Ok (v, s') -> from s s'.
Proof. unfold read_uint. intros E. apply bind_ok in E as ((b & t) & E & X). apply Writer_Append.Ok_inj, pair_equal_spec in X as (_ & <-). exact (read_n_from _ _ _ _ E). Qed.
Lemma read_f64_from s o v s' : read_f64 s o = Ok (v, s') -> from s s'.
Proof. unfold read_f64. intros E. apply bind_ok in E as ((b & t) & E & X). apply Writer_Append.Ok_inj, pair_equal_spec in X as (_ & <-). exact (read_n_from _ _ _ _ E). Qed.
Lemma read_string_from s n v s' : read_string s n = Ok (v, s') -> from s s'.
Proof.
  unfold read_string. destruct (is_fail s) eqn:N; [discriminate|]. pose proof (is_read_from s n N) as F. destruct (is_read s n) as (b & t). cbn [snd] in F.
  destruct (Nat.ltb _ _); [discriminate|]. intros E. apply Writer_Append.Ok_inj in E. apply pair_equal_spec in E as (_ & <-). exact F.
Qed.
Lemma from_trans a b c : from a b -> from b c -> from a c.
Proof. unfold from. intros (A & _) (B & C). split; [congruence|exact C]. Qed.
Lemma unflag s : flagged s -> is_data (if is_eof s then is_clear s else s) = is_data s /\ is_fail (if is_eof s then is_clear s else s) = false.
Proof. unfold flagged. destruct (is_eof s) eqn:Q; [auto|]. intros F. split; [reflexivity|]. destruct (is_fail s); [specialize (F eq_refl); discriminate|reflexivity]. Qed.
Lemma seek_from s p : is_fail s = false -> 0 <= p -> is_data (is_seek s p) = is_data s /\ is_fail (is_seek s p) = false /\ is_eof (is_seek s p) = false.
Proof. intros N P. unfold is_seek. rewrite N. destruct (Z.ltb_spec p 0); [lia|]. auto. Qed.

Lemma doff_schema h sc h' : set_schema h sc = Ok h' -> h_doff h' = h_doff h.
Proof.
  unfold set_schema. destruct (get_dimension _ _); [|discriminate]. destruct (get_dimension _ _); [|discriminate]. destruct (get_dimension _ _); [|discriminate].
  intros E. apply Writer_Append.Ok_inj in E. subst h'. reflexivity.
Qed.
Lemma doff_extra h n h' : add_extra h n = Ok h' -> h_doff h' = h_doff h.
Proof.
  unfold add_extra. destruct (_ =? _); intros E; [apply Writer_Append.Ok_inj in E; now subst h'|]. apply bind_ok in E as (d & _ & E). exact (doff_schema _ _ _ E).
Qed.
Lemma doff_returns k : forall i s h h' s', read_returns k i s h = Ok (h', s') -> flagged s -> (h_doff h' = h_doff h /\ h_hsize h' = h_hsize h) /\ from s s'.
Proof.
  induction k as [|k IH]; intros i s h h' s' E F; cbn [read_returns] in E.
  - apply Writer_Append.Ok_inj, pair_equal_spec in E as (-> & ->). split; [auto|]. split; auto.
  - apply bind_ok in E as ((c & s1) & E1 & E). apply bind_ok in E as (h1 & E2 & E). pose proof (read_uint_from _ _ _ _ _ E1) as F1.
    destruct (IH _ _ _ _ _ E (proj2 F1)) as ((A & A2) & B). split; [|exact (from_trans _ _ _ F1 B)]. rewrite A, A2. unfold set_by_return in E2. destruct (_ && _); [|discriminate].
    apply Writer_Append.Ok_inj in E2. subst h1. split; reflexivity.
Qed.
Lemma read_vlr_from s o v b s' : read_vlr s o = Ok (v, b, s') -> from s s'.
Proof.
  unfold read_vlr. destruct (is_fail s) eqn:N; [discriminate|]. pose proof (is_read_from s 54 N) as F. destruct (is_read s 54) as (bs & s1). cbn [snd] in F. intros E.
  apply bind_ok in E as (b0 & _ & E). cbv zeta in E. apply bind_ok in E as ((d & s2) & E2 & E). apply bind_ok in E as (v1 & _ & E). apply bind_ok in E as (v2 & _ & E).
  apply Writer_Append.Ok_inj, pair_equal_spec in E as (_ & <-). destruct (0 <? vlrh_length b0).
  - exact (from_trans _ _ _ F (read_n_from _ _ _ _ E2)).
  - apply Writer_Append.Ok_inj, pair_equal_spec in E2 as (_ & <-). exact F.
Qed.
Lemma doff_vlr_loop k : forall s o h h' s', read_vlr_loop k s o h = Ok (h', s') -> flagged s -> h_doff h' = h_doff h /\ from s s'.
Proof.
  induction k as [|k IH]; intros s o h h' s' E F; cbn [read_vlr_loop] in E.
  - apply Writer_Append.Ok_inj, pair_equal_spec in E as (-> & ->). split; [reflexivity|]. split; auto.
  - apply bind_ok in E as (((v & b) & s1) & E1 & E). pose proof (read_vlr_from _ _ _ _ _ E1) as F1. destruct (IH _ _ _ _ _ E (proj2 F1)) as (A & B).
    split; [rewrite A; reflexivity|exact (from_trans _ _ _ F1 B)].
Qed.
Lemma read_vlrs_from xml s h h' s' : read_vlrs xml s h = Ok (h', s') -> flagged s -> 0 <= h_hsize h -> h_doff h' = h_doff h /\ from s s'.
Proof.
  unfold read_vlrs. intros E F H. cbv zeta in E. destruct (unflag s F) as (D & N). destruct (seek_from _ (h_hsize h) N H) as (D1 & N1 & _).
  apply bind_ok in E as ((h1 & s2) & E1 & E). apply doff_vlr_loop in E1 as (A & (B & C)); [|unfold flagged; rewrite N1; discriminate].
  assert (K : forall hh, Ok (hh, s2) = Ok (h', s') -> h_doff hh = h_doff h1 -> h_doff h' = h_doff h /\ from s s').
  { intros hh X Y. apply Writer_Append.Ok_inj, pair_equal_spec in X as (-> & ->). split; [rewrite Y, A; reflexivity|]. split; [congruence|exact C]. }
  destruct (let! sc := schema_of_vlrs _ _ in set_schema _ _) as [h3|e|u] eqn:X; [|destruct e; try discriminate| discriminate].
  1:{ apply bind_ok in X as (sc & _ & X). apply (K h3 E). rewrite (doff_schema _ _ _ X). reflexivity. }
  all: apply bind_ok in E as (sc & _ & E); apply bind_ok in E as (h3 & X3 & E); apply (K h3 E); rewrite (doff_schema _ _ _ X3); reflexivity.
Qed.

Ltac down :=
  match goal with
  | E : obind _ _ = Ok _ |- _ => let Q := fresh "Q" in apply bind_ok in E as (? & Q & E); cbv beta iota zeta in E
  | E : (let (_, _) := ?p in _) = Ok _ |- _ => is_var p; destruct p; cbv beta iota zeta in E
  end.
Ltac chase :=
  repeat match goal with
  | Q : read_string ?a _ = Ok (_, _) |- _ => apply read_string_from in Q
  | Q : read_uint ?a _ _ = Ok (_, _) |- _ => apply read_uint_from in Q
  | Q : read_f64 ?a _ = Ok (_, _) |- _ => apply read_f64_from in Q
  | Q : read_n ?a _ = Ok (_, _) |- _ => apply read_n_from in Q
  end.
Ltac chain :=
  repeat match goal with
  | A : from ?x ?y, B : from ?y ?z |- _ => let K := fresh "K" in pose proof (from_trans _ _ _ A B) as K; clear A B
  end.
(** ReadHeader ends with the stream readable, over the same data. *)
Lemma read_header_from xml s h h' s' : read_header xml s h = Ok (h', s') -> is_data s' = is_data s /\ is_fail s' = false /\ is_eof s' = false.
Proof.
  intros E. unfold read_header in E. cbv zeta in E.
  assert (S0 : is_data (is_seek s 0) = is_data s) by (unfold is_seek; destruct (is_fail s); reflexivity).
  remember (is_seek s 0) as s0 eqn:X0. clear X0.
  repeat down. chase. chain.
  match type of E with (if ?c then _ else _) = _ => destruct c; [discriminate|] end. 
  match type of E with context [set_data_offset (set_header_size ?hh ?n) ?m] => 
    set (h1 := set_data_offset (set_header_size hh n) m) in E;
    assert (D1 : 0 <= h_doff h1) by (cbn [h1 set_data_offset h_doff h_upd_doff]; apply Z.mod_pos_bound; lia);
    assert (Z1 : 0 <= h_hsize h1) by (cbn [h1 set_data_offset h_hsize h_upd_doff set_header_size h_upd_hsize]; apply Z.mod_pos_bound; lia); clearbody h1 end.
  repeat down. chase. chain.
  assert (H4 : h_doff x4 = h_doff h1 /\ h_hsize x4 = h_hsize h1).
  { destruct (_ && _) in Q2; [|destruct (_ && _) in Q2; [|discriminate]]; apply Writer_Append.Ok_inj in Q2; subst x4; split; reflexivity. }
  assert (H5 : h_doff x5 = h_doff h1 /\ h_hsize x5 = h_hsize h1).
  { destruct (_ <=? _) in Q3; [|discriminate]. unfold set_fmt, set_header_format in Q3. destruct (set_format _ _) as (sc & [?|?|?]); try discriminate.
    apply Writer_Append.Ok_inj in Q3. subst x5. exact H4. }
  assert (FL : flagged i14) by (match goal with A : from _ i14 |- _ => exact (proj2 A) end).
  apply doff_returns in Q8 as ((A1 & A2) & A3); [|exact FL]. chain. clear FL.
  cbn [set_point_count h_upd_npts h_doff h_hsize] in A1, A2. destruct H5 as (H5 & H6).
  assert (G : h_doff h2 = h_doff h1 /\ from s0 i28).
  { match goal with A : from s0 i27 |- _ => rename A into A0 end.
    match goal with Q : (if 0 <? h_nvlr ?hh then _ else _) = Ok (h2, i28) |- _ => rename Q into Q22; destruct (0 <? h_nvlr hh) end.
    - apply read_vlrs_from in Q22 as (B1 & B2); [|exact (proj2 A0)|cbn [set_min set_max set_offset set_scale h_upd_min h_upd_max h_upd_offset h_upd_scale h_hsize]; lia].
      split; [rewrite B1; cbn [set_min set_max set_offset set_scale h_upd_min h_upd_max h_upd_offset h_upd_scale h_doff]; lia|exact (from_trans _ _ _ A0 B2)].
    - apply Writer_Append.Ok_inj, pair_equal_spec in Q22 as (<- & <-). split; [cbn [set_min set_max set_offset set_scale h_upd_min h_upd_max h_upd_offset h_upd_scale h_doff]; lia|exact A0]. }
  destruct G as (G1 & G2 & G3). apply Writer_Append.Ok_inj, pair_equal_spec in E as (_ & <-).
  destruct (unflag i28 G3) as (U1 & U2). cbn [set_header_padding h_upd_pad h_doff].
  destruct (seek_from _ (h_doff h2) U2 ltac:(lia)) as (V1 & V2 & V3). split; [congruence|auto].
Qed.

(** *** a stream is opened the same way from anywhere *)
Lemma seek_good s : is_fail s = false -> is_seek s 0 = is_open (is_data s).
Proof. intros N. unfold is_seek. rewrite N. reflexivity. Qed.
Lemma read_header_good xml s t h : is_seek s 0 = is_seek t 0 -> read_header xml s h = read_header xml t h.
Proof. intros E. unfold read_header. rewrite E. reflexivity. Qed.
Lemma clear_good s : is_fail s = false \/ is_eof s = true -> is_seek (if is_eof s then is_clear s else s) 0 = is_open (is_data s).
Proof. intros H. destruct (is_eof s); [reflexivity|]. destruct H as [H|H]; [exact (seek_good s H)|discriminate]. Qed.
Lemma impl_good xml s h d : is_fail s = false \/ is_eof s = true -> impl_read_header xml s h d = impl_read_header xml (is_open (is_data s)) h d.
Proof.
  intros H. unfold impl_read_header. cbv zeta. change (is_eof (is_open (is_data s))) with false. cbv iota.
  rewrite (read_header_good xml _ (is_open (is_data s)) h); [reflexivity|]. rewrite (clear_good s H). reflexivity.
Qed.
(** Wherever a stream stands, and if it was read to its end. *)
Theorem C80_anywhere : forall xml doy year s, is_fail s = false \/ is_eof s = true -> reader_on xml doy year s = reader_open xml doy year (is_data s).
Proof. intros xml doy year s H. unfold reader_on, reader_open. destruct (header_new doy year); [|reflexivity..]. cbn [obind]. apply (impl_good xml s _ _ H). Qed.
Print Assumptions C80_anywhere.
Lemma cached_anywhere xml doy year size s : is_fail s = false \/ is_eof s = true -> cached_on xml doy year size s = cached_open xml doy year size (is_data s).
Proof.
  intros H. unfold cached_on, cached_open, cached_read_header. destruct (header_new doy year); [|reflexivity..]. cbn [obind q_rd r_is r_hdr r_data]. rewrite (impl_good xml s _ _ H).
  destruct (impl_read_header _ _ _ _); reflexivity.
Qed.

Lemma peek_open xml doy year s h s1 : is_fail s = false -> peek_header xml doy year s = Ok (h, s1) ->
  is_data s1 = is_data s /\ is_fail s1 = false /\ exists h0, header_new doy year = Ok h0 /\ read_header xml (is_open (is_data s)) h0 = Ok (h, s1).
Proof.
  intros N E. unfold peek_header in E. apply bind_ok in E as (h0 & H0 & E). destruct (read_header_from _ _ _ _ _ E) as (A & B & _). split; [exact A|]. split; [exact B|].
  exists h0. split; [exact H0|]. rewrite <- E. apply read_header_good. rewrite (seek_good s N). reflexivity.
Qed.
Lemma open_peek xml doy year s r : is_fail s = false -> reader_open xml doy year (is_data s) = Ok r ->
  exists h s1, peek_header xml doy year s = Ok (h, s1) /\ h_comp h = false /\ is_data s1 = is_data s /\ is_fail s1 = false.
Proof.
  intros N E. unfold reader_open in E. apply bind_ok in E as (h0 & H0 & E). unfold impl_read_header in E. cbv zeta in E. change (is_eof (is_open (is_data s))) with false in E. cbv iota in E.
  apply bind_ok in E as ((h & s1) & E1 & E). exists h, s1. destruct (read_header_from _ _ _ _ _ E1) as (A & B & _).
  split; [unfold peek_header; rewrite H0; cbn [obind]; rewrite <- E1; apply read_header_good; rewrite (seek_good s N); reflexivity|].
  split; [destruct (h_comp h); [discriminate|reflexivity]|]. auto.
Qed.
(** The factory makes a reader exactly when the stream's bytes can be opened, and it
    is the same reader (header, position, record buffer and stream), so every later
    call does the same. *)
Theorem C80_same_reader : forall xml doy year s r, is_fail s = false ->
  (create_with_stream xml doy year s = Ok r <-> reader_open xml doy year (is_data s) = Ok r).
Proof.
  intros xml doy year s r N. unfold create_with_stream. split; intros E.
  - apply bind_ok in E as ((h & s1) & P & E). destruct (h_comp h); [discriminate|]. destruct (peek_open _ _ _ _ _ _ N P) as (A & B & _).
    rewrite C80_anywhere, A in E by auto. exact E.
  - destruct (open_peek _ _ _ _ _ N E) as (h & s1 & P & C & A & B). rewrite P. cbn [obind]. rewrite C, C80_anywhere, A by auto. exact E.
Qed.
Print Assumptions C80_same_reader.
Theorem C80_same_cached : forall xml doy year size s q, is_fail s = false ->
  (create_cached xml doy year size s = Ok q <-> cached_open xml doy year size (is_data s) = Ok q).
Proof.
  intros xml doy year size s q N. unfold create_cached. split; intros E.
  - apply bind_ok in E as ((h & s1) & P & E). destruct (h_comp h); [discriminate|]. destruct (peek_open _ _ _ _ _ _ N P) as (A & B & _).
    rewrite cached_anywhere, A in E by auto. exact E.
  - assert (R : exists r, reader_open xml doy year (is_data s) = Ok r).
    { unfold cached_open, cached_read_header in E. apply bind_ok in E as (h0 & H0 & E). cbn [q_rd r_is r_hdr r_data] in E. apply bind_ok in E as (r & E1 & _). exists r.
      unfold reader_open. rewrite H0. exact E1. }
    destruct R as (r & R). destruct (open_peek _ _ _ _ _ N R) as (h & s1 & P & C & A & B). rewrite P. cbn [obind]. rewrite C, cached_anywhere, A by auto. exact E.
Qed.
Print Assumptions C80_same_cached.

(** A file whose format byte asks for compression is never opened, and neither is one
    that fails the other checks. *)
Theorem C80_refused : forall xml doy year size s, is_fail s = false -> bytes_ok (is_data s) -> (227 <= length (is_data s))%nat -> ~ header_checks (is_data s) ->
  (forall r, create_with_stream xml doy year s <> Ok r) /\ (forall q, create_cached xml doy year size s <> Ok q).
Proof.
  intros xml doy year size s N B L C. split.
  - intros r E. apply (C80_same_reader xml doy year s r N) in E. exact (C31_rejected xml doy year (is_data s) B L C r E).
  - intros q E. apply (C80_same_cached xml doy year size s q N) in E. unfold cached_open, cached_read_header in E. apply bind_ok in E as (h0 & H0 & E).
    cbn [q_rd r_is r_hdr r_data] in E. apply bind_ok in E as (r & E1 & _). apply (C31_rejected xml doy year (is_data s) B L C r). unfold reader_open. rewrite H0. exact E1.
Qed.
Print Assumptions C80_refused.

(** Over a stream that was read to its end a Reader works and the factory fails. *)
Theorem C80_read_stream_refuted : forall xml doy year s, is_eof s = true -> is_fail s = true ->
  reader_on xml doy year s = reader_open xml doy year (is_data s) /\ (forall r, create_with_stream xml doy year s <> Ok r) /\ (forall size q, create_cached xml doy year size s <> Ok q).
Proof.
  intros xml doy year s Q N. split; [apply C80_anywhere; auto|].
  assert (P : forall x, peek_header xml doy year s <> Ok x).
  { intros x E. unfold peek_header in E. apply bind_ok in E as (h0 & _ & E). unfold read_header in E. cbv zeta in E. apply bind_ok in E as (y & E & _).
    unfold is_seek in E. rewrite N in E. discriminate. }
  split; [intros r E|intros size q E]; apply bind_ok in E as (x & E & _); exact (P x E).
Qed.
Print Assumptions C80_read_stream_refuted.

(** *** names *)
Definition either (c lo up : Z) : Prop := c = lo \/ c = up.
(** The name ends in ".las" (".laz"), in small or capital letters. *)
Definition ends_las (name : list Z) : Prop := exists base l a s, name = base ++ [46; l; a; s] /\ either l 108 76 /\ either a 97 65 /\ either s 115 83.
Definition ends_laz (name : list Z) : Prop := exists base l a z, name = base ++ [46; l; a; z] /\ either l 108 76 /\ either a 97 65 /\ either z 122 90.
Lemma last_dot_some s e : from_last_dot s = Some e -> exists b t, s = b ++ e /\ e = 46 :: t.
Proof.
  revert e. induction s as [|c s IH]; intros e E; [discriminate|]. cbn [from_last_dot] in E. destruct (from_last_dot s) as [e'|].
  - apply (f_equal (fun o => match o with Some x => x | None => [] end)) in E. subst e'. destruct (IH e eq_refl) as (b & t & -> & ->). now exists (c :: b), t.
  - destruct (Z.eqb_spec c 46); [|discriminate]. apply (f_equal (fun o => match o with Some x => x | None => [] end)) in E. subst e c. now exists [], s.
Qed.
Lemma last_dot_none t : ~ In 46 t -> from_last_dot t = None.
Proof. induction t as [|c t IH]; intros N; [reflexivity|]. cbn [from_last_dot]. rewrite IH by (intros X; apply N; now right). destruct (Z.eqb_spec c 46); [|reflexivity]. elim N. now left. Qed.
Lemma last_dot_ends b t : ~ In 46 t -> from_last_dot (b ++ 46 :: t) = Some (46 :: t).
Proof. intros N. induction b as [|c b IH]; cbn [app from_last_dot]; [rewrite (last_dot_none t N); reflexivity|]. rewrite IH. reflexivity. Qed.
Lemma lower_small c d : 97 <= d <= 122 -> (lower c = d <-> either c d (d - 32)).
Proof. intros D. unfold lower, either. destruct (Z.leb_spec 65 c), (Z.leb_spec c 90); cbn [andb]; split; lia. Qed.
Lemma streq_four e x y z : 97 <= x <= 122 -> 97 <= y <= 122 -> 97 <= z <= 122 ->
  (streq_insensitive e [46; x; y; z] = true <-> exists l a s, e = [46; l; a; s] /\ either l x (x - 32) /\ either a y (y - 32) /\ either s z (z - 32)).
Proof.
  intros X Y Z'. assert (LW : forall d, 97 <= d <= 122 -> lower d = d) by (intros d D; unfold lower; destruct (Z.leb_spec d 90); [lia|]; rewrite andb_false_r; reflexivity).
  unfold streq_insensitive. split.
  - destruct e as [|d [|l [|a [|s [|? e]]]]]; cbn [List.length Nat.eqb negb]; try discriminate. cbn [streq_loop]. rewrite (LW x X), (LW y Y), (LW z Z').
    destruct (Z.eqb_spec (lower d) (lower 46)) as [D|]; [|discriminate]. destruct (Z.eqb_spec (lower l) x) as [L|]; [|discriminate].
    destruct (Z.eqb_spec (lower a) y) as [A|]; [|discriminate]. destruct (Z.eqb_spec (lower s) z) as [S|]; [|discriminate]. intros _.
    apply lower_small in L, A, S; [|lia..]. exists l, a, s. split; [|auto]. f_equal. revert D. change (lower 46) with 46. unfold lower. destruct (Z.leb_spec 65 d), (Z.leb_spec d 90); cbn [andb]; lia.
  - intros (l & a & s & -> & L & A & S). apply lower_small in L, A, S; [|lia..]. cbn [List.length Nat.eqb negb streq_loop]. rewrite (LW x X), (LW y Y), (LW z Z'), L, A, S, !Z.eqb_refl. reflexivity.
Qed.
Theorem C80_file_type : forall name, (infer_file_type name = FileLAS <-> ends_las name) /\ (infer_file_type name = FileLAZ <-> ends_laz name).
Proof.
  intros name. unfold infer_file_type. change (str ".laz") with [46; 108; 97; 122]. change (str ".las") with [46; 108; 97; 115].
  assert (D : forall base l a c, either l 108 76 -> either a 97 65 -> either c 115 83 \/ either c 122 90 -> from_last_dot (base ++ [46; l; a; c]) = Some [46; l; a; c]).
  { intros base l a c L A C. apply last_dot_ends. unfold either in *. cbn. lia. }
  split; split.
  - destruct (from_last_dot name) as [e|] eqn:E; [|discriminate]. destruct (streq_insensitive e [46; 108; 97; 122]) eqn:Z1; [discriminate|]. destruct (streq_insensitive e [46; 108; 97; 115]) eqn:S1; [|discriminate].
    intros _. apply streq_four in S1 as (l & a & s & -> & L & A & S); [|lia..]. destruct (last_dot_some _ _ E) as (b & t & -> & _). now exists b, l, a, s.
  - intros (b & l & a & s & -> & L & A & S). rewrite D by auto. destruct (streq_insensitive _ [46; 108; 97; 122]) eqn:Z1.
    { apply streq_four in Z1 as (l' & a' & s' & X & _ & _ & S'); [|lia..]. apply (f_equal (fun v => nth 3 v 0)) in X. cbn in X. subst s'. unfold either in *. lia. }
    replace (streq_insensitive [46; l; a; s] [46; 108; 97; 115]) with true; [reflexivity|]. symmetry. apply streq_four; [lia..|]. now exists l, a, s.
  - destruct (from_last_dot name) as [e|] eqn:E; [|discriminate]. destruct (streq_insensitive e [46; 108; 97; 122]) eqn:Z1; [|destruct (streq_insensitive e [46; 108; 97; 115]); discriminate].
    intros _. apply streq_four in Z1 as (l & a & s & -> & L & A & S); [|lia..]. destruct (last_dot_some _ _ E) as (b & t & -> & _). now exists b, l, a, s.
  - intros (b & l & a & s & -> & L & A & S). rewrite D by auto.
    replace (streq_insensitive [46; l; a; s] [46; 108; 97; 122]) with true; [reflexivity|]. symmetry. apply streq_four; [lia..|]. now exists l, a, s.
Qed.
Print Assumptions C80_file_type.
(** Cases: a file of one record made from a stream that stands at its 40th byte; the
    same stream after reading too much; names. *)
Definition read_up : istream := snd (is_read (is_open (raw_file 2 227 0 1 20 1 (rec_of 1))) 300).
Theorem C80_instance : (forall xml doy year, exists r, create_with_stream xml doy year (mkIs (raw_file 2 227 0 1 20 1 (rec_of 1)) 40 false false) = Ok r) /\
  (is_eof read_up = true /\ is_fail read_up = true /\ is_data read_up = raw_file 2 227 0 1 20 1 (rec_of 1)) /\
  infer_file_type (str "a.b/c.LaZ") = FileLAZ /\ infer_file_type (str "las") = FileUnknown /\ ends_las (str "x.las").
Proof.
  split; [|split; [|split; [|split]]].
  - intros xml doy year.
    assert (HF : las_file (raw_file 2 227 0 1 20 1 (rec_of 1))) by (apply las_fileb_ok; vm_compute; reflexivity).
    assert (HN : no_schema_vlr (raw_file 2 227 0 1 20 1 (rec_of 1))) by (apply no_schema_vlrb; vm_compute; reflexivity).
    destruct (open_ok xml doy year _ HF HN) as (r & E & _). exists r. apply C80_same_reader; [reflexivity|exact E].
  - repeat split; vm_compute; reflexivity.
  - vm_compute. reflexivity.
  - vm_compute. reflexivity.
  - exists (str "x"), 108, 97, 115. repeat split; left; reflexivity.
Qed.
Print Assumptions C80_instance.
(** What a file asking for compression gets: a configuration_error from the factory. *)
Definition zipped : list Z := firstn 104 (raw_file 2 227 0 1 20 1 (rec_of 1)) ++ 128 :: skipn 105 (raw_file 2 227 0 1 20 1 (rec_of 1)).
Definition thrown {A} (o : outcome A) (e : exn) : bool := match o, e with Throw EConfiguration, EConfiguration => true | Throw ERuntime, ERuntime => true | _, _ => false end.
Theorem C80_compressed_instance : forall xml, thrown (create_with_stream xml 1 2012 (is_open zipped)) EConfiguration = true /\
  thrown (create_cached xml 1 2012 5 (is_open zipped)) EConfiguration = true /\ thrown (reader_open xml 1 2012 zipped) ERuntime = true /\ ~ header_checks zipped.
Proof.
  intros xml. split; [vm_compute; reflexivity|]. split; [vm_compute; reflexivity|]. split; [vm_compute; reflexivity|].
  intros (_ & _ & _ & _ & H). apply H. vm_compute. reflexivity.
Qed.
Print Assumptions C80_compressed_instance.

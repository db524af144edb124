(** The data VLRs the index writes: each group of cells in one VLR, or one large
    cell in several. *)
From Coq Require Import ZArith List Bool Lia.
From Coq Require Import ZifyBool ZifyNat.
Import ListNotations.
From Verif Require Import Outcome Bytes CStr Float64 Vlr_Model Index_Cell Index_Out Index_Items.
Local Open Scope Z_scope.
Local Notation length := List.length (only parsing).

Notation placed_cell := (Z * Z * cell)%type.

(** The contents of one VLR: the first and last cell it says it covers, and the
    cells in it. *)
Record group := mkG { g_x0 : Z; g_y0 : Z; g_x1 : Z; g_y1 : Z; g_cells : list placed_cell }.
Definition pc_bytes (c : placed_cell) : list Z := cell_bytes (fst (fst c)) (snd (fst c)) (snd c).
Definition g_bytes (g : group) : list Z := flat_map pc_bytes (g_cells g).
Definition g_size (g : group) : Z := 24 + lenB (g_bytes g).
Definition count_pts (l : list placed_cell) : Z := fold_left (fun n (c : placed_cell) => (n + k_num (snd c)) mod 2 ^ 32) l 0.
Definition g_pts (g : group) : Z := count_pts (g_cells g).
Definition g_head6 (x0 y0 x1 y1 size n : Z) : list Z :=
  le_enc 4 x0 ++ le_enc 4 y0 ++ le_enc 4 x1 ++ le_enc 4 y1 ++ le_enc 4 size ++ le_enc 4 n.
Definition g_head (g : group) : list Z := g_head6 (g_x0 g) (g_y0 g) (g_x1 g) (g_y1 g) (g_size g) (g_pts g).
Definition g_data (g : group) : list Z := g_head g ++ g_bytes g.

(** VLRs that continue one: their first v_size bytes are the next bytes *)
Inductive conts : list Z -> list vlr -> Prop :=
| conts_nil : conts [] []
| conts_cons rest n d vs : 0 < n <= vlr_max -> n <= lenB rest -> (n = vlr_max \/ n = lenB rest) -> n <= lenB d ->
    firstn (Z.to_nat n) d = firstn (Z.to_nat n) rest -> conts (skipn (Z.to_nat n) rest) vs -> conts rest (data_vlr n d :: vs).
Inductive group_vlrs (g : group) : list vlr -> Prop :=
| gv_one pad : g_size g + lenB pad <= vlr_max -> lenB pad < 4 -> group_vlrs g [data_vlr (g_size g + lenB pad) (g_data g ++ pad)]
| gv_many vs : vlr_max < g_size g -> conts (skipn (Z.to_nat vlr_max) (g_data g)) vs ->
    group_vlrs g (data_vlr vlr_max (firstn (Z.to_nat vlr_max) (g_data g)) :: vs).
Inductive encodes : list group -> list vlr -> Prop :=
| enc_nil : encodes [] []
| enc_cons g vs gs rest : group_vlrs g vs -> encodes gs rest -> encodes (g :: gs) (vs ++ rest).
Lemma encodes_snoc gs vs g ws : encodes gs vs -> group_vlrs g ws -> encodes (gs ++ [g]) (vs ++ ws).
Proof.
  intros H G. induction H as [|g' vs' gs rest G' H IH]; cbn [app].
  - rewrite <- (app_nil_r ws). constructor; [exact G|constructor].
  - rewrite <- app_assoc. constructor; assumption.
Qed.

(** ** Writing into a vector *)

Lemma put_mid d p a b c bs : d = a ++ b ++ c -> lenB a = p -> length bs = length b -> put d p bs = Ok (a ++ bs ++ c).
Proof.
  intros -> <- H. unfold put. replace (lenB (a ++ b ++ c) <? lenB a + lenB bs) with false by (rewrite !app_length; lia).
  unfold buf_set. rewrite Nat2Z.id. replace (length a + length bs <=? length (a ++ b ++ c))%nat with true by (rewrite !app_length; lia).
  rewrite firstn_app, Nat.sub_diag, firstn_O, app_nil_r, firstn_all. rewrite H, skipn_app, skipn_all2 by lia. cbn [app].
  replace (length a + length b - length a)%nat with (length b) by lia. rewrite skipn_app, skipn_all, Nat.sub_diag. reflexivity.
Qed.
Lemma resize_length n l : lenB (resize n l) = Z.max 0 n.
Proof. unfold resize. rewrite app_length, firstn_length, repeat_length. lia. Qed.
Lemma resize_cut n a b : lenB a = n -> resize n (a ++ b) = a.
Proof.
  intros <-. unfold resize. rewrite Nat2Z.id, firstn_app, Nat.sub_diag, firstn_all, firstn_O, app_nil_r, app_length.
  replace (length a - (length a + length b))%nat with 0%nat by lia. apply app_nil_r.
Qed.
Lemma resize_same n a : lenB a = n -> resize n a = a.
Proof. intros H. rewrite <- (app_nil_r a) at 1. now apply resize_cut. Qed.
Lemma head6_length x0 y0 x1 y1 s n : lenB (g_head6 x0 y0 x1 y1 s n) = 24.
Proof. unfold g_head6. rewrite !app_length, !le_enc_length. reflexivity. Qed.
Lemma split4 (d : list Z) : (4 <= length d)%nat -> exists f r, d = f ++ r /\ length f = 4%nat.
Proof. intros H. exists (firstn 4 d), (skipn 4 d). rewrite firstn_skipn, firstn_length. split; [reflexivity|lia]. Qed.

Lemma init_ok o x y : exists junk, lenB junk = vlr_max - 24 /\
  init_vlr_data o x y = Ok (mkOut (o_vlrs o) (g_head6 x y x y 24 0 ++ junk) 24 0 false false).
Proof.
  unfold init_vlr_data. pose proof (resize_length vlr_max (o_cell o)) as HL. set (d := resize vlr_max (o_cell o)) in *. clearbody d.
  change (Z.max 0 vlr_max) with 65535 in HL.
  destruct (split4 d) as (f0 & d0 & E0 & L0); [lia|]. assert (HL0 : lenB d0 = 65531) by (rewrite E0, app_length in HL; lia).
  destruct (split4 d0) as (f1 & d1 & E1 & L1); [lia|]. assert (HL1 : lenB d1 = 65527) by (rewrite E1, app_length in HL0; lia).
  destruct (split4 d1) as (f2 & d2 & E2 & L2); [lia|]. assert (HL2 : lenB d2 = 65523) by (rewrite E2, app_length in HL1; lia).
  destruct (split4 d2) as (f3 & d3 & E3 & L3); [lia|]. assert (HL3 : lenB d3 = 65519) by (rewrite E3, app_length in HL2; lia).
  destruct (split4 d3) as (f4 & d4 & E4 & L4); [lia|]. assert (HL4 : lenB d4 = 65515) by (rewrite E4, app_length in HL3; lia).
  destruct (split4 d4) as (f5 & d5 & E5 & L5); [lia|]. assert (HL5 : lenB d5 = 65511) by (rewrite E5, app_length in HL4; lia).
  subst. exists d5. split; [exact HL5|].
  rewrite (put_mid _ 0 [] f0 (f1 ++ f2 ++ f3 ++ f4 ++ f5 ++ d5)); [|reflexivity|reflexivity|rewrite le_enc_length; lia]. cbn [obind app].
  rewrite (put_mid _ 4 (le_enc 4 x) f1 (f2 ++ f3 ++ f4 ++ f5 ++ d5)); [|reflexivity|rewrite le_enc_length; lia|rewrite le_enc_length; lia]. cbn [obind].
  rewrite (put_mid _ 8 (le_enc 4 x ++ le_enc 4 y) f2 (f3 ++ f4 ++ f5 ++ d5)); [|rewrite <- !app_assoc; reflexivity|rewrite app_length, !le_enc_length; lia|rewrite le_enc_length; lia]. cbn [obind].
  rewrite (put_mid _ 12 (le_enc 4 x ++ le_enc 4 y ++ le_enc 4 x) f3 (f4 ++ f5 ++ d5)); [|rewrite <- !app_assoc; reflexivity|rewrite !app_length, !le_enc_length; lia|rewrite le_enc_length; lia]. cbn [obind].
  rewrite (put_mid _ 16 (le_enc 4 x ++ le_enc 4 y ++ le_enc 4 x ++ le_enc 4 y) f4 (f5 ++ d5)); [|rewrite <- !app_assoc; reflexivity|rewrite !app_length, !le_enc_length; lia|rewrite le_enc_length; lia]. cbn [obind].
  rewrite (put_mid _ 20 (le_enc 4 x ++ le_enc 4 y ++ le_enc 4 x ++ le_enc 4 y ++ le_enc 4 24) f5 d5); [|rewrite <- !app_assoc; reflexivity|rewrite !app_length, !le_enc_length; lia|rewrite le_enc_length; lia]. cbn [obind].
  unfold g_head6. now rewrite <- !app_assoc.
Qed.

(** rewriting the fields of the common data *)
Lemma put_last x0 y0 x1 y1 s n r x y : (let! d := put (g_head6 x0 y0 x1 y1 s n ++ r) 8 (le_enc 4 x) in put d 12 (le_enc 4 y)) = Ok (g_head6 x0 y0 x y s n ++ r).
Proof.
  unfold g_head6. rewrite (put_mid _ 8 (le_enc 4 x0 ++ le_enc 4 y0) (le_enc 4 x1) (le_enc 4 y1 ++ le_enc 4 s ++ le_enc 4 n ++ r)); [|rewrite <- !app_assoc; reflexivity|rewrite !app_length, !le_enc_length; lia|now rewrite !le_enc_length]. cbn [obind].
  rewrite (put_mid _ 12 (le_enc 4 x0 ++ le_enc 4 y0 ++ le_enc 4 x) (le_enc 4 y1) (le_enc 4 s ++ le_enc 4 n ++ r)); [|rewrite <- !app_assoc; reflexivity|rewrite !app_length, !le_enc_length; lia|now rewrite !le_enc_length].
  now rewrite <- !app_assoc.
Qed.
Lemma put_size x0 y0 x1 y1 s n r s' n' : (let! d := put (g_head6 x0 y0 x1 y1 s n ++ r) 16 (le_enc 4 s') in put d 20 (le_enc 4 n')) = Ok (g_head6 x0 y0 x1 y1 s' n' ++ r).
Proof.
  unfold g_head6. rewrite (put_mid _ 16 (le_enc 4 x0 ++ le_enc 4 y0 ++ le_enc 4 x1 ++ le_enc 4 y1) (le_enc 4 s) (le_enc 4 n ++ r)); [|rewrite <- !app_assoc; reflexivity|rewrite !app_length, !le_enc_length; lia|now rewrite !le_enc_length]. cbn [obind].
  rewrite (put_mid _ 20 (le_enc 4 x0 ++ le_enc 4 y0 ++ le_enc 4 x1 ++ le_enc 4 y1 ++ le_enc 4 s') (le_enc 4 n) r); [|rewrite <- !app_assoc; reflexivity|rewrite !app_length, !le_enc_length; lia|now rewrite !le_enc_length].
  now rewrite <- !app_assoc.
Qed.

(** ** The continuation VLRs *)

Lemma continuation_ok fuel : forall tmp w d vlrs, 0 <= w <= lenB tmp -> lenB d = vlr_max -> (length tmp - Z.to_nat w <= fuel)%nat ->
  exists d' vs, continuation fuel tmp w (lenB tmp - w) d vlrs = Ok (d', vlrs ++ vs) /\ conts (skipn (Z.to_nat w) tmp) vs /\ lenB d' = vlr_max.
Proof.
  induction fuel as [|fuel IH]; intros tmp w d vlrs HW HD HF; cbn [continuation].
  - replace (lenB tmp - w <=? 0) with true by lia. exists d, []. rewrite app_nil_r, skipn_all2 by lia. split; [reflexivity|]. split; [constructor|exact HD].
  - destruct (lenB tmp - w <=? 0) eqn:E.
    + exists d, []. rewrite app_nil_r, skipn_all2 by lia. split; [reflexivity|]. split; [constructor|exact HD].
    + set (n := if lenB tmp - w <? vlr_max then lenB tmp - w else vlr_max).
      assert (Hn : 0 < n <= vlr_max /\ n <= lenB tmp - w /\ (n = vlr_max \/ n = lenB tmp - w)) by (unfold n, vlr_max in *; destruct (lenB tmp - w <? 65535) eqn:E'; lia). clearbody n.
      set (bs := firstn (Z.to_nat n) (skipn (Z.to_nat w) tmp)). assert (LB : lenB bs = n) by (unfold bs; rewrite firstn_length, skipn_length; lia).
      rewrite (put_mid d 0 [] (firstn (Z.to_nat n) d) (skipn (Z.to_nat n) d)); [|now rewrite firstn_skipn|reflexivity|rewrite firstn_length; lia]. cbn [app obind].
      set (d1 := bs ++ skipn (Z.to_nat n) d). assert (L1 : lenB d1 = vlr_max) by (unfold d1; rewrite app_length, skipn_length; lia).
      destruct (IH tmp (w + n) d1 (vlrs ++ [data_vlr n d1])) as (d' & vs & E1 & E2 & E3); [lia|exact L1|lia|].
      replace (lenB tmp - w - n) with (lenB tmp - (w + n)) by lia. rewrite E1. exists d', (data_vlr n d1 :: vs). rewrite <- app_assoc. split; [reflexivity|]. split; [|exact E3].
      assert (LS : lenB (skipn (Z.to_nat w) tmp) = lenB tmp - w) by (rewrite skipn_length; lia).
      constructor; [lia|lia|lia|lia| |].
      * unfold d1. rewrite firstn_app, firstn_all2 by lia. replace (Z.to_nat n - length bs)%nat with 0%nat by lia. rewrite firstn_O, app_nil_r. reflexivity.
      * rewrite skipn_skipn. replace (Z.to_nat n + Z.to_nat w)%nat with (Z.to_nat (w + n)) by lia. exact E2.
Qed.

(** ** What OutputCell keeps true *)

Definition nonempty (c : placed_cell) : bool := negb (k_num (snd c) =? 0).
(** a cell whose data does not fit a VLR *)
Definition big (c : placed_cell) : Prop := vlr_max < 24 + lenB (pc_bytes c).
Definition fits32 (c : placed_cell) : Prop := 24 + lenB (pc_bytes c) < 2 ^ 32 /\ 0 <= k_num (snd c) < 2 ^ 32.
Definition lexle (a b : Z * Z) : Prop := fst a < fst b \/ (fst a = fst b /\ snd a <= snd b).
(** the cells of the group lie between the cells it says are its first and last *)
Definition span_ok (g : group) : Prop :=
  Forall (fun c : placed_cell => lexle (g_x0 g, g_y0 g) (fst c) /\ lexle (fst c) (g_x1 g, g_y1 g)) (g_cells g).
(** no big cell comes right after an empty one *)
Definition no_hidden (l : list placed_cell) : Prop :=
  forall a e c b, l = a ++ e :: c :: b -> nonempty e = false -> nonempty c = true -> big c -> False.
(** the cells come in the order of their columns and, within one, rows *)
Definition in_order (l : list placed_cell) : Prop :=
  forall a c b, l = a ++ c :: b -> Forall (fun e : placed_cell => lexle (fst e) (fst c)) a.

Lemma lexle_refl a : lexle a a. Proof. right. lia. Qed.
Lemma lexle_trans a b c : lexle a b -> lexle b c -> lexle a c. Proof. unfold lexle. lia. Qed.

(** the state between two calls, after the cells [seen], when a VLR is open *)
Record open_inv (gs : list group) (vs base : list vlr) (g : group) (seen : list placed_cell) (o : out) : Prop := {
  oi_vlrs : o_vlrs o = base ++ vs;
  oi_cell : exists junk, o_cell o = g_data g ++ junk /\ lenB (o_cell o) = vlr_max;
  oi_drs : o_drs o = g_size g;
  oi_pts : o_pts o = g_pts g;
  oi_first : o_first o = false;
  oi_some : o_some o = negb (match g_cells g with [] => true | _ => false end);
  oi_fit : g_size g <= vlr_max;
  oi_x : In (g_x0 g, g_y0 g) (map fst seen) /\ In (g_x1 g, g_y1 g) (map fst seen);
  oi_hidden : g_cells g = [] -> g_x1 g = g_x0 g /\ g_y1 g = g_y0 g /\ exists a e, seen = a ++ [e] /\ nonempty e = false;
  oi_span : in_order seen -> span_ok g }.
Definition done_inv (gs : list group) (vs : list vlr) (seen : list placed_cell) : Prop :=
  encodes gs vs /\ Forall (fun g => g_cells g <> [] /\ In (g_x0 g, g_y0 g) (map fst seen) /\ In (g_x1 g, g_y1 g) (map fst seen) /\ g_size g < 2 ^ 32 /\ (vlr_max < g_size g -> exists c, g_cells g = [c])) gs /\
  (in_order seen -> no_hidden seen -> Forall span_ok gs).
Definition cells_of (gs : list group) : list placed_cell := flat_map g_cells gs.
Inductive out_inv (base : list vlr) (seen : list placed_cell) (o : out) : Prop :=
| oi_open gs vs g : done_inv gs vs seen -> open_inv gs vs base g seen o -> cells_of gs ++ g_cells g = filter nonempty seen -> out_inv base seen o
| oi_closed gs vs : done_inv gs vs seen -> o_vlrs o = base ++ vs -> o_first o = true -> o_some o = false -> lenB (o_cell o) = vlr_max \/ seen = [] ->
    cells_of gs = filter nonempty seen -> out_inv base seen o.

Lemma in_order_prefix a b : in_order (a ++ b) -> in_order a.
Proof. intros H x c y E. apply (H x c (y ++ b)). now rewrite E, <- app_assoc. Qed.
Lemma no_hidden_prefix a b : no_hidden (a ++ b) -> no_hidden a.
Proof. intros H x e c y E. apply (H x e c (y ++ b)). now rewrite E, <- app_assoc. Qed.
Lemma in_order_last a c : in_order (a ++ [c]) -> Forall (fun e : placed_cell => lexle (fst e) (fst c)) a.
Proof. intros H. now apply (H a c []). Qed.
Lemma done_mono gs vs a b : done_inv gs vs a -> done_inv gs vs (a ++ b).
Proof.
  intros (A & B & C). split; [exact A|]. split.
  - eapply Forall_impl; [|exact B]. cbv beta. intros g (G0 & G1 & G2 & G3). rewrite map_app, !in_app_iff. auto.
  - intros X Y. apply C; [eapply in_order_prefix|eapply no_hidden_prefix]; eassumption.
Qed.
Lemma count_snoc l c : count_pts (l ++ [c]) = (count_pts l + k_num (snd c)) mod 2 ^ 32.
Proof. unfold count_pts. now rewrite fold_left_app. Qed.
Lemma g_bytes_snoc x0 y0 x1 y1 x2 y2 l c : g_bytes (mkG x0 y0 x1 y1 (l ++ [c])) = g_bytes (mkG x0 y0 x2 y2 l) ++ pc_bytes c.
Proof. unfold g_bytes. cbn [g_cells]. rewrite flat_map_app. cbn [flat_map]. now rewrite app_nil_r. Qed.
Lemma g_data_length g : lenB (g_data g) = g_size g.
Proof. unfold g_data, g_head, g_size. rewrite app_length, Nat2Z.inj_add, head6_length. reflexivity. Qed.

(** the two ways a cell's data is written, from an open VLR with room in front *)
Definition fresh (x y : Z) : group := mkG x y x y [].
Lemma fresh_data x y : g_data (fresh x y) = g_head6 x y x y 24 0.
Proof. unfold g_data. change (g_bytes (fresh x y)) with (@nil Z). rewrite app_nil_r. reflexivity. Qed.
Lemma fresh_size x y : g_size (fresh x y) = 24. Proof. reflexivity. Qed.
Lemma pc_bytes_length c : 28 <= lenB (pc_bytes c). Proof. apply cell_bytes_length. Qed.

(** the part of output_cell behind the test of the size: indexoutput.cpp:270-334 *)
Definition place_cell (o : out) (x y : Z) (tmp : list Z) : outcome out :=
    if lenB tmp + o_drs o <=? vlr_max
    then
      let pos := o_drs o in
      let! d := put (o_cell o) 8 (le_enc 4 x) in
      let! d := put d 12 (le_enc 4 y) in
      let drs := o_drs o + lenB tmp in
      let! d := put d 16 (le_enc 4 drs) in
      let! d := put d 20 (le_enc 4 (o_pts o)) in
      let! d := put d pos tmp in
      Ok (mkOut (o_vlrs o) d drs (o_pts o) (o_first o) true)
    else
      let pos := o_drs o in
      let drs := o_drs o + lenB tmp in
      let d := if lenB (o_cell o) =? vlr_max then o_cell o else resize vlr_max (o_cell o) in
      let! d := put d 16 (le_enc 4 drs) in
      let! d := put d 20 (le_enc 4 (o_pts o)) in
      let written := vlr_max - pos in
      let! d := put d pos (firstn (Z.to_nat written) tmp) in
      let! (d, vlrs) := continuation (length tmp) tmp written (lenB tmp - written) d (o_vlrs o ++ [data_vlr vlr_max d]) in
      Ok (mkOut vlrs d drs (o_pts o) true false).
Lemma obind_assoc {A B C} (m : outcome A) (f : A -> outcome B) (g : B -> outcome C) : obind (obind m f) g = obind m (fun a => obind (f a) g).
Proof. destruct m; reflexivity. Qed.

Lemma place_small vlrs x0 y0 x1 y1 l junk c some : let g := mkG x0 y0 x1 y1 l in
  let g' := mkG x0 y0 (fst (fst c)) (snd (fst c)) (l ++ [c]) in
  lenB (g_data g ++ junk) = vlr_max -> g_size g' <= vlr_max -> 0 <= k_num (snd c) ->
  exists junk', place_cell (mkOut vlrs (g_data g ++ junk) (g_size g) (g_pts g') false some) (fst (fst c)) (snd (fst c)) (pc_bytes c) =
    Ok (mkOut vlrs (g_data g' ++ junk') (g_size g') (g_pts g') false true) /\ lenB (g_data g' ++ junk') = vlr_max.
Proof.
  intros g g' HL HF HK. unfold place_cell. cbn [o_drs o_cell o_pts o_vlrs o_first].
  assert (ES : g_size g' = g_size g + lenB (pc_bytes c)) by (unfold g', g, g_size; rewrite (g_bytes_snoc x0 y0 _ _ x1 y1), app_length; lia).
  replace (lenB (pc_bytes c) + g_size g <=? vlr_max) with true by lia.
  assert (LG : lenB (g_data g) = g_size g) by apply g_data_length. rewrite app_length in HL.
  assert (D : g_data g ++ junk = g_head6 x0 y0 x1 y1 (g_size g) (g_pts g) ++ (g_bytes g ++ junk)) by (unfold g_data; rewrite <- app_assoc; reflexivity).
  rewrite D. rewrite <- (obind_assoc (put _ 8 _)), put_last. cbn [obind]. rewrite <- (obind_assoc (put _ 16 _)), put_size. cbn [obind].
  rewrite <- ES. 
  rewrite (put_mid _ (g_size g) (g_head6 x0 y0 (fst (fst c)) (snd (fst c)) (g_size g') (g_pts g') ++ g_bytes g) (firstn (length (pc_bytes c)) junk) (skipn (length (pc_bytes c)) junk)).
  - cbn [obind]. exists (skipn (length (pc_bytes c)) junk). 
    assert (D' : g_data g' = (g_head6 x0 y0 (fst (fst c)) (snd (fst c)) (g_size g') (g_pts g') ++ g_bytes g) ++ pc_bytes c).
    { unfold g_data, g_head. cbn [g_x0 g_y0 g_x1 g_y1 g']. rewrite <- app_assoc. f_equal. unfold g', g. apply g_bytes_snoc. }
    rewrite D'. split; [rewrite <- !app_assoc; reflexivity|]. rewrite <- D', app_length, skipn_length, Nat2Z.inj_add, g_data_length. lia.
  - rewrite <- !app_assoc. now rewrite firstn_skipn.
  - rewrite app_length, Nat2Z.inj_add, head6_length. reflexivity.
  - rewrite firstn_length. rewrite Nat2Z.inj_add in HL. lia.
Qed.

Lemma place_big vlrs x y junk c some : let g := fresh x y in let g' := mkG x y x y [c] in
  lenB (g_data g ++ junk) = vlr_max -> vlr_max < g_size g' -> 0 <= k_num (snd c) ->
  exists d vs, place_cell (mkOut vlrs (g_data g ++ junk) (g_size g) (g_pts g') false some) (fst (fst c)) (snd (fst c)) (pc_bytes c) =
    Ok (mkOut (vlrs ++ vs) d (g_size g') (g_pts g') true false) /\ lenB d = vlr_max /\ group_vlrs g' vs.
Proof.
  intros g g' HL HF HK. unfold place_cell. cbn [o_drs o_cell o_pts o_vlrs o_first].
  assert (EB : g_bytes g' = pc_bytes c) by (unfold g_bytes; cbn [g_cells g' flat_map]; apply app_nil_r).
  assert (ES : g_size g' = 24 + lenB (pc_bytes c)) by (unfold g_size; now rewrite EB).
  change (g_size g) with 24. replace (lenB (pc_bytes c) + 24 <=? vlr_max) with false by lia.
  rewrite HL. change (vlr_max =? vlr_max) with true. cbv iota. rewrite <- ES.
  assert (D : g_data g = g_head6 x y x y 24 0) by apply fresh_data. rewrite D in *.
  rewrite <- (obind_assoc (put _ 16 _)), put_size. cbn [obind]. rewrite app_length, Nat2Z.inj_add, head6_length in HL.
  set (w := vlr_max - 24). set (bs := firstn (Z.to_nat w) (pc_bytes c)). assert (LB : lenB bs = w) by (unfold bs, w, vlr_max in *; rewrite firstn_length; lia).
  rewrite (put_mid _ 24 (g_head6 x y x y (g_size g') (g_pts g')) junk []); [|now rewrite app_nil_r|apply head6_length|unfold w in LB; lia].
  rewrite app_nil_r. cbn [obind]. set (d := g_head6 x y x y (g_size g') (g_pts g') ++ bs). assert (LD : lenB d = vlr_max) by (unfold d; rewrite app_length, Nat2Z.inj_add, head6_length, LB; unfold w; lia).
  destruct (continuation_ok (length (pc_bytes c)) (pc_bytes c) w d (vlrs ++ [data_vlr vlr_max d])) as (d' & vs & E1 & E2 & E3); [unfold w, vlr_max in *; lia|exact LD|lia|].
  rewrite E1. cbn [obind]. exists d', (data_vlr vlr_max d :: vs). rewrite <- app_assoc. cbn [app]. split; [reflexivity|]. split; [exact E3|].
  assert (DD : g_data g' = g_head6 x y x y (g_size g') (g_pts g') ++ pc_bytes c) by (unfold g_data, g_head; cbn [g_x0 g_y0 g_x1 g_y1 g']; now rewrite EB).
  pose proof (head6_length x y x y (g_size g') (g_pts g')) as LH.
  assert (F1 : d = firstn (Z.to_nat vlr_max) (g_data g')).
  { rewrite DD, firstn_app, firstn_all2 by (unfold vlr_max; lia). unfold d, bs, w. do 2 f_equal. }
  rewrite F1. constructor; [exact HF|]. rewrite DD, skipn_app, skipn_all2 by (unfold vlr_max; lia). cbn [app].
  replace (Z.to_nat vlr_max - length (g_head6 x y x y (g_size g') (g_pts g')))%nat with (Z.to_nat w) by (unfold w, vlr_max; lia). exact E2.
Qed.

Lemma output_cell_place o x y c : output_cell o x y c =
  let! o := (if o_first o then init_vlr_data o x y else Ok o) in
  if k_num c =? 0 then Ok o
  else
    let o := mkOut (o_vlrs o) (o_cell o) (o_drs o) ((o_pts o + k_num c) mod 2 ^ 32) (o_first o) (o_some o) in
    let tmp := cell_bytes x y c in
    let! o := (if o_some o && (vlr_max <? lenB tmp + o_drs o)
               then
                 let d := resize (o_drs o) (o_cell o) in
                 let! o := init_vlr_data (mkOut (o_vlrs o ++ [data_vlr (o_drs o) d]) d (o_drs o) (o_pts o) (o_first o) (o_some o)) x y in
                 Ok (mkOut (o_vlrs o) (o_cell o) (o_drs o) (k_num c) (o_first o) (o_some o))
               else Ok o) in
    place_cell o x y tmp.
Proof. reflexivity. Qed.

Lemma filter_snoc c seen : filter nonempty (seen ++ [c]) = filter nonempty seen ++ (if nonempty c then [c] else []).
Proof. rewrite filter_app. cbn [filter]. now destruct (nonempty c). Qed.
Lemma head_in_order (seen : list placed_cell) c p : In p (map fst seen) -> in_order (seen ++ [c]) -> lexle p (fst c).
Proof. intros HI HO. apply in_order_last in HO. rewrite Forall_forall in HO. apply in_map_iff in HI. destruct HI as (e & <- & He). now apply HO. Qed.

(** placing a cell that has points *)
Lemma place_step base gs vs x0 y0 x1 y1 l seen c junk some gz np : let g := mkG x0 y0 x1 y1 l in
  gz = g_size g -> np = (g_pts g + k_num (snd c)) mod 2 ^ 32 ->
  done_inv gs vs seen -> cells_of gs ++ l = filter nonempty seen -> nonempty c = true -> fits32 c ->
  lenB (g_data g ++ junk) = vlr_max -> In (x0, y0) (map fst (seen ++ [c])) ->
  (l <> [] -> lenB (pc_bytes c) + g_size g <= vlr_max) ->
  (l = [] -> x1 = x0 /\ y1 = y0 /\ ((x0, y0) = fst c \/ exists a e, seen = a ++ [e] /\ nonempty e = false)) ->
  (in_order seen -> span_ok g) ->
  exists o', place_cell (mkOut (base ++ vs) (g_data g ++ junk) gz np false some) (fst (fst c)) (snd (fst c)) (pc_bytes c) = Ok o' /\
    out_inv base (seen ++ [c]) o'.
Proof.
  intros g -> -> HD HC HN (HB & HK) HL HI HF HE HS.
  assert (HX : in_order (seen ++ [c]) -> lexle (x0, y0) (fst c)).
  { intros HO. rewrite map_app, in_app_iff in HI. destruct HI as [HI|[HI|[]]]; [now apply (head_in_order seen)|]. rewrite HI. apply lexle_refl. }
  assert (CI : In (fst c) (map fst (seen ++ [c]))) by (rewrite map_app, in_app_iff; right; now left).
  set (g' := mkG x0 y0 (fst (fst c)) (snd (fst c)) (l ++ [c])).
  assert (GS : g_size g' = g_size g + lenB (pc_bytes c)) by (unfold g', g, g_size; rewrite (g_bytes_snoc x0 y0 _ _ x1 y1), app_length; lia).
  assert (GP : (g_pts g + k_num (snd c)) mod 2 ^ 32 = g_pts g') by (unfold g_pts, g', g; cbn [g_cells]; now rewrite count_snoc). rewrite GP.
  destruct (Z_le_gt_dec (g_size g') vlr_max) as [FT|BG].
  - destruct (place_small (base ++ vs) x0 y0 x1 y1 l junk c some HL FT (proj1 HK)) as (junk' & E & L'). fold g g' in E, L'. rewrite E.
    eexists. split; [reflexivity|]. apply (oi_open _ _ _ gs vs g').
    + now apply done_mono.
    + split; cbn [o_vlrs o_cell o_drs o_pts o_first o_some g_cells g_x0 g_y0 g_x1 g_y1 g'].
      * reflexivity.
      * exists junk'. split; [reflexivity|exact L'].
      * reflexivity.
      * reflexivity.
      * reflexivity.
      * destruct l; reflexivity.
      * exact FT.
      * split; [exact HI|]. destruct c as ((cx, cy), cc). exact CI.
      * intros E0. now destruct l.
      * intros HO. unfold span_ok, g'. cbn [g_cells g_x0 g_y0 g_x1 g_y1]. apply Forall_app. split.
        -- specialize (HS (in_order_prefix _ _ HO)). unfold span_ok, g in HS. cbn [g_cells g_x0 g_y0 g_x1 g_y1] in HS. rewrite Forall_forall in *. intros e He. specialize (HS e He). split; [tauto|].
           assert (Hs : In e seen). { assert (Y : In e (filter nonempty seen)) by (rewrite <- HC; apply in_app_iff; now right). apply filter_In in Y. tauto. }
           destruct c as ((cx, cy), cc). cbn [fst snd]. apply (head_in_order seen ((cx, cy), cc)); [now apply in_map|exact HO].
        -- constructor; [|constructor]. destruct c as ((cx, cy), cc). cbn [fst snd] in *. split; [now apply HX|apply lexle_refl].
    + cbn [g' g_cells]. rewrite app_assoc, HC, filter_snoc, HN. reflexivity.
  - assert (L0 : l = []). { destruct l as [|e l]; [reflexivity|]. specialize (HF ltac:(discriminate)). lia. } subst l. destruct (HE eq_refl) as (-> & -> & HH).
    set (g2 := mkG x0 y0 x0 y0 [c]).
    assert (GS2 : g_size g2 = g_size g') by reflexivity. assert (GP2 : g_pts g2 = g_pts g') by reflexivity.
    destruct (place_big (base ++ vs) x0 y0 junk c some HL ltac:(unfold g2 in GS2; lia) (proj1 HK)) as (d & ws & E & LD & GV).
    change (fresh x0 y0) with g in E. fold g2 in E, GV. rewrite <- GP2. rewrite E. eexists. split; [reflexivity|].
    destruct HD as (D1 & D2 & D3). apply (oi_closed _ _ _ (gs ++ [g2]) (vs ++ ws)); cbn [o_vlrs o_cell o_first o_some].
    + split; [now apply encodes_snoc|]. split.
      * apply Forall_app. split.
        -- eapply Forall_impl; [|exact D2]. cbv beta. intros k (K0 & K1 & K2 & K3). rewrite map_app, !in_app_iff. auto.
        -- constructor; [|constructor]. cbn [g2 g_cells g_x0 g_y0 g_x1 g_y1]. split; [discriminate|]. split; [exact HI|]. split; [exact HI|]. rewrite GS2, GS. change (g_size g) with 24. split; [lia|eauto].
      * intros HO HH'. apply Forall_app. split; [apply D3; [eapply in_order_prefix|eapply no_hidden_prefix]; eassumption|]. constructor; [|constructor].
        assert (EC : (x0, y0) = fst c).
        { destruct HH as [HH|(a & e & -> & He)]; [exact HH|]. exfalso. apply (HH' a e c []); [now rewrite <- app_assoc|exact He|exact HN|]. unfold big. change (g_size g) with 24 in GS. lia. }
        unfold span_ok, g2. cbn [g_cells g_x0 g_y0 g_x1 g_y1]. constructor; [|constructor]. rewrite EC. split; apply lexle_refl.
    + now rewrite app_assoc.
    + reflexivity.
    + reflexivity.
    + now left.
    + unfold cells_of in *. rewrite flat_map_app. cbn [flat_map g2 g_cells app]. rewrite app_nil_r in *. rewrite HC, filter_snoc, HN. reflexivity.
Qed.

Lemma step_ok base seen o c : out_inv base seen o -> fits32 c ->
  exists o', output_cell o (fst (fst c)) (snd (fst c)) (snd c) = Ok o' /\ out_inv base (seen ++ [c]) o'.
Proof.
  intros HI HT. rewrite output_cell_place. assert (CI : In (fst c) (map fst (seen ++ [c]))) by (rewrite map_app, in_app_iff; right; now left).
  assert (CI2 : In (fst (fst c), snd (fst c)) (map fst (seen ++ [c]))) by (destruct c as ((cx, cy), cc); exact CI).
  destruct HI as [gs vs g HD [O1 (junk & O2 & O2') O3 O4 O5 O6 O7 (O8 & O9) O10 O11] HC|gs vs HD O1 O5 O6 O2 HC].
  - rewrite O5. cbn [obind]. destruct (k_num (snd c) =? 0) eqn:K.
    + eexists. split; [reflexivity|]. assert (NE : nonempty c = false) by (unfold nonempty; now rewrite K). apply (oi_open _ _ _ gs vs g).
      * now apply done_mono.
      * split; try assumption.
        -- eauto.
        -- rewrite map_app, !in_app_iff. tauto.
        -- intros E. destruct (O10 E) as (X & Y & _). split; [exact X|]. split; [exact Y|]. exists seen, c. split; [reflexivity|exact NE].
        -- intros HO. apply O11. eapply in_order_prefix. exact HO.
      * rewrite filter_snoc, NE, app_nil_r. exact HC.
    + assert (NE : nonempty c = true) by (unfold nonempty; now rewrite K). cbv zeta. cbn [o_vlrs o_cell o_drs o_pts o_first o_some].
      destruct o as [ov oc od op of os]. cbn [o_vlrs o_cell o_drs o_pts o_first o_some] in *. subst ov od op of os.
      change (cell_bytes (fst (fst c)) (snd (fst c)) (snd c)) with (pc_bytes c).
      destruct g as [x0 y0 x1 y1 l]. cbn [g_cells g_x0 g_y0 g_x1 g_y1] in *. set (g := mkG x0 y0 x1 y1 l) in *.
      destruct (negb (match l with [] => true | _ => false end) && (vlr_max <? lenB (pc_bytes c) + g_size g)) eqn:FL.
      * assert (LN : l <> []) by (intros ->; discriminate).
        assert (RS : resize (g_size g) oc = g_data g) by (rewrite O2; apply resize_cut, g_data_length). rewrite RS.
        set (d0 := data_vlr (g_size g) (g_data g)).
        assert (GV : group_vlrs g [d0]). { unfold d0. rewrite <- (app_nil_r (g_data g)). replace (g_size g) with (g_size g + lenB (@nil Z)) at 1 by (cbn [List.length]; lia). constructor; cbn [List.length]; lia. }
        destruct (init_ok (mkOut ((base ++ vs) ++ [d0]) (g_data g) (g_size g) ((g_pts g + k_num (snd c)) mod 2 ^ 32) false (negb (match l with [] => true | _ => false end))) (fst (fst c)) (snd (fst c))) as (junk2 & LJ & EI).
        rewrite EI. cbn [obind o_vlrs o_cell o_drs o_pts o_first o_some]. rewrite <- fresh_data. rewrite <- app_assoc.
        assert (GP : k_num (snd c) = (g_pts (fresh (fst (fst c)) (snd (fst c))) + k_num (snd c)) mod 2 ^ 32). { change (g_pts (fresh (fst (fst c)) (snd (fst c)))) with 0. rewrite Z.mod_small; [reflexivity|destruct HT; lia]. }
        destruct HD as (D1 & D2 & D3).
        assert (HD' : done_inv (gs ++ [g]) (vs ++ [d0]) seen).
        { split; [now apply encodes_snoc|]. split.
          - apply Forall_app. split; [exact D2|]. constructor; [|constructor]. cbn [g g_cells g_x0 g_y0 g_x1 g_y1]. split; [exact LN|]. split; [exact O8|]. split; [exact O9|]. unfold vlr_max in *. fold g. split; lia.
          - intros HO HH. apply Forall_app. split; [now apply D3|]. constructor; [|constructor]. now apply O11. }
        apply (place_step base (gs ++ [g]) (vs ++ [d0]) (fst (fst c)) (snd (fst c)) (fst (fst c)) (snd (fst c)) [] seen c junk2 false _ _ eq_refl GP HD').
        -- unfold cells_of in *. rewrite flat_map_app. cbn [flat_map g g_cells]. rewrite !app_nil_r. exact HC.
        -- exact NE.
        -- exact HT.
        -- change (mkG (fst (fst c)) (snd (fst c)) (fst (fst c)) (snd (fst c)) []) with (fresh (fst (fst c)) (snd (fst c))). rewrite fresh_data, app_length, Nat2Z.inj_add, head6_length. lia.
        -- exact CI2.
        -- intros X. now contradiction X.
        -- intros _. split; [reflexivity|]. split; [reflexivity|]. left. now destruct c as ((cx, cy), cc).
        -- intros _. constructor.
      * cbn [obind]. subst oc. unfold g. apply (place_step base gs vs x0 y0 x1 y1 l seen c junk _ _ _ eq_refl eq_refl HD HC NE HT).
        -- exact O2'.
        -- rewrite map_app, in_app_iff. now left.
        -- intros X. fold g. destruct l; [now contradiction X|]. cbn [negb andb] in FL. lia.
        -- intros X. destruct (O10 X) as (X1 & X2 & X3). split; [exact X1|]. split; [exact X2|]. now right.
        -- exact O11.
  - rewrite O5. destruct (init_ok o (fst (fst c)) (snd (fst c))) as (junk & LJ & EI). rewrite EI. cbn [obind o_vlrs o_cell o_drs o_pts o_first o_some andb].
    assert (FL : lenB (g_data (fresh (fst (fst c)) (snd (fst c))) ++ junk) = vlr_max) by (rewrite fresh_data, app_length, Nat2Z.inj_add, head6_length; lia).
    rewrite <- fresh_data. destruct (k_num (snd c) =? 0) eqn:K.
    + eexists. split; [reflexivity|]. assert (NE : nonempty c = false) by (unfold nonempty; now rewrite K). apply (oi_open _ _ _ gs vs (fresh (fst (fst c)) (snd (fst c)))).
      * now apply done_mono.
      * split; cbn [o_vlrs o_cell o_drs o_pts o_first o_some fresh g_cells g_x0 g_y0 g_x1 g_y1]; try reflexivity.
        -- exact O1.
        -- exists junk. split; [reflexivity|exact FL].
        -- discriminate.
        -- now split.
        -- intros _. split; [reflexivity|]. split; [reflexivity|]. exists seen, c. split; [reflexivity|exact NE].
        -- intros _. constructor.
      * cbn [fresh g_cells]. rewrite filter_snoc, NE, !app_nil_r. exact HC.
    + assert (NE : nonempty c = true) by (unfold nonempty; now rewrite K). cbv zeta. cbn [o_vlrs o_cell o_drs o_pts o_first o_some andb obind]. rewrite O1.
      change (cell_bytes (fst (fst c)) (snd (fst c)) (snd c)) with (pc_bytes c).
      apply (place_step base gs vs (fst (fst c)) (snd (fst c)) (fst (fst c)) (snd (fst c)) [] seen c junk false _ _ eq_refl eq_refl HD).
      * now rewrite app_nil_r.
      * exact NE.
      * exact HT.
      * exact FL.
      * exact CI2.
      * intros X. now contradiction X.
      * intros _. split; [reflexivity|]. split; [reflexivity|]. left. now destruct c as ((cx, cy), cc).
      * intros _. constructor.
Qed.

Lemma output_cells_ok base cells : forall seen o, out_inv base seen o -> Forall fits32 cells ->
  exists o', output_cells o cells = Ok o' /\ out_inv base (seen ++ cells) o'.
Proof.
  induction cells as [|((x, y), c) cells IH]; intros seen o HI HF; cbn [output_cells].
  - exists o. rewrite app_nil_r. now split.
  - destruct (step_ok base seen o (x, y, c) HI (Forall_inv HF)) as (o1 & E1 & I1). cbn [fst snd] in E1. rewrite E1. cbn [obind].
    destruct (IH _ o1 I1 (Forall_inv_tail HF)) as (o2 & E2 & I2). exists o2. split; [exact E2|]. now rewrite <- app_assoc in I2.
Qed.

Lemma pad_zero_ok n : forall base junk done z i, lenB base + z = Z.of_nat (length base + length junk) -> z = Z.of_nat n ->
  exists junk', pad_zero n (lenB base + z + i) i (base ++ junk ++ done) = Ok (base ++ junk' ++ done) /\ length junk' = length junk.
Proof.
  induction n as [|n IH]; intros base junk done z i HZ HN; cbn [pad_zero].
  - exists junk. now split.
  - destruct (exists_last (l := junk)) as (junk0 & b & ->); [intros ->; cbn [List.length] in HZ; lia|].
    rewrite app_length in HZ. cbn [List.length] in HZ.
    unfold buf_set. set (d := base ++ (junk0 ++ [b]) ++ done).
    replace (Z.to_nat (lenB base + z + i - i - 1)) with (length (base ++ junk0)) by (rewrite app_length; lia).
    replace (length (base ++ junk0) + length [0%Z] <=? length d)%nat with true by (unfold d; rewrite !app_length; cbn [List.length]; lia).
    assert (D : d = (base ++ junk0) ++ [b] ++ done) by (unfold d; now rewrite <- !app_assoc).
    rewrite D. rewrite firstn_app, Nat.sub_diag, firstn_O, app_nil_r, firstn_all.
    rewrite skipn_app, skipn_all2 by (cbn [List.length]; lia). cbn [app List.length]. replace (length (base ++ junk0) + 1 - length (base ++ junk0))%nat with 1%nat by lia. cbn [skipn].
    rewrite <- app_assoc. change (0 :: done) with ([0] ++ done).
    destruct (IH base junk0 ([0] ++ done) (z - 1) (i + 1)) as (j & E & L); [lia|lia|].
    replace (lenB base + (z - 1) + (i + 1)) with (lenB base + z + i) in E by lia.
    rewrite E. exists (j ++ [0]). split; [now rewrite <- !app_assoc|]. rewrite !app_length. cbn [List.length]. lia.
Qed.

Theorem write_index_ok base h cells : Forall fits32 cells ->
  exists gs vs, write_index base h cells = Ok (base ++ [head_vlr h] ++ vs) /\ encodes gs vs /\ cells_of gs = filter nonempty cells /\
    Forall (fun g => g_cells g <> [] /\ In (g_x0 g, g_y0 g) (map fst cells) /\ In (g_x1 g, g_y1 g) (map fst cells) /\ g_size g < 2 ^ 32 /\ (vlr_max < g_size g -> exists c, g_cells g = [c])) gs /\
    (in_order cells -> no_hidden cells -> Forall span_ok gs).
Proof.
  intros HF. unfold write_index.
  destruct (output_cells_ok (base ++ [head_vlr h]) cells [] (initiate base h)) as (o & E & HI).
  { apply (oi_closed _ _ _ [] []); [|now rewrite app_nil_r|reflexivity|reflexivity|now right|reflexivity]. split; [constructor|]. split; [constructor|]. intros; constructor. }
  { exact HF. }
  rewrite E. cbn [obind app] in *. unfold finalize. clear E.
  destruct HI as [gs vs g (D1 & D2 & D3) [O1 (junk & O2 & O2') O3 O4 O5 O6 O7 (O8 & O9) O10 O11] HC|gs vs (D1 & D2 & D3) O1 O5 O6 O2 HC].
  - destruct (o_some o) eqn:SM.
    + assert (GN : g_cells g <> []) by (intros X; rewrite X in O6; discriminate).
      assert (FIN : forall pad drs, group_vlrs g [data_vlr drs (g_data g ++ pad)] -> 
        exists gs0 vs0, Ok ((base ++ [head_vlr h]) ++ vs ++ [data_vlr drs (g_data g ++ pad)]) = Ok (base ++ head_vlr h :: vs0) /\ encodes gs0 vs0 /\ cells_of gs0 = filter nonempty cells /\
          Forall (fun g => g_cells g <> [] /\ In (g_x0 g, g_y0 g) (map fst cells) /\ In (g_x1 g, g_y1 g) (map fst cells) /\ g_size g < 2 ^ 32 /\ (vlr_max < g_size g -> exists c, g_cells g = [c])) gs0 /\
          (in_order cells -> no_hidden cells -> Forall span_ok gs0)).
      { intros pad drs GV. exists (gs ++ [g]), (vs ++ [data_vlr drs (g_data g ++ pad)]). split; [now rewrite <- app_assoc|]. split; [now apply encodes_snoc|].
        split; [unfold cells_of in *; rewrite flat_map_app; cbn [flat_map]; now rewrite app_nil_r|]. split.
        - apply Forall_app. split; [exact D2|]. constructor; [|constructor]. unfold vlr_max in *. repeat (split; [assumption|]). split; [lia|intros; lia].
        - intros HO HH. apply Forall_app. split; [now apply D3|]. constructor; [now apply O11|constructor]. }
      rewrite O1, O3. pose proof (g_data_length g) as LG.
      destruct (negb (g_size g mod 4 =? 0) && (g_size g + g_size g mod 4 <=? vlr_max)) eqn:PD.
      * set (pd := g_size g mod 4) in *. assert (Hpd : 0 <= pd) by (unfold pd; lia).
        assert (J : lenB junk = vlr_max - g_size g) by (rewrite O2, app_length in O2'; lia).
        assert (Hsz : g_size g + pd <= vlr_max) by lia.
        destruct (pad_zero_ok (Z.to_nat pd) (g_data g) (firstn (Z.to_nat pd) junk) (skipn (Z.to_nat pd) junk) pd 0) as (j & EP & LJ); [rewrite firstn_length; lia|lia|].
        rewrite firstn_skipn, Z.add_0_r, LG, <- O2 in EP. rewrite EP. cbn [obind]. rewrite firstn_length in LJ. rewrite app_assoc, resize_cut.
        -- rewrite <- (app_assoc _ vs). apply FIN. replace pd with (lenB j) by lia. constructor; [lia|]. assert (pd < 4) by (unfold pd; apply Z.mod_pos_bound; lia). lia.
        -- rewrite app_length. lia.
      * cbn [obind]. rewrite O2, resize_cut by exact LG. rewrite <- (app_nil_r (g_data g)), <- app_assoc. apply FIN.
        replace (g_size g) with (g_size g + lenB (@nil Z)) at 1 by (cbn [List.length]; lia). constructor; cbn [List.length]; lia.
    + assert (GN : g_cells g = []) by (destruct (g_cells g); [reflexivity|discriminate]).
      exists gs, vs. rewrite O1, <- app_assoc. split; [reflexivity|]. split; [exact D1|]. split; [rewrite GN, app_nil_r in HC; exact HC|]. split; assumption.
  - rewrite O6. exists gs, vs. rewrite O1, <- app_assoc. split; [reflexivity|]. split; [exact D1|]. split; [exact HC|]. split; assumption.
Qed.

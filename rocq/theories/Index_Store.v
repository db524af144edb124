(** The VLRs of a built index can be stored in a file: they are made of bytes, have
    the size they say, and their total size is bounded. *)
From Coq Require Import ZArith List Bool Lia String.
From Coq Require Import ZifyBool ZifyNat.
Import ListNotations.
From Verif Require Import Outcome Bytes CStr Float64 Vlr_Model Bounds_Model IO_Spec Writer_Proofs Reader_Vlrs IO_Samples Rewrite_Proofs Index_Cell Index_Temp Index_Scan Index_Out Index_Query Index_Spec Index_ScanProofs Index_Items Index_Groups Index_Filter Index_Load.
Local Open Scope Z_scope.
Local Notation length := List.length (only parsing).

(** ** Bytes *)
Definition vlr_bytes (v : vlr) : Prop := bytes_ok (v_data v).
Lemma bytes_resize n l : bytes_ok l -> bytes_ok (resize n l).
Proof. intros H. unfold resize. apply bytes_app; [now apply bytes_firstn|]. apply Forall_forall. intros b Hb. apply repeat_spec in Hb. subst b. unfold is_byte. lia. Qed.
Lemma bytes_put d p bs d' : bytes_ok d -> bytes_ok bs -> put d p bs = Ok d' -> bytes_ok d'.
Proof.
  intros H1 H2. unfold put. cbn zeta. destruct (buf_set _ _ _) eqn:E; [|discriminate]. intros X. apply Writer_Append.Ok_inj in X. subst d'.
  eapply buf_set_bytes; [|exact H2|exact E]. destruct (_ <? _); [now apply bytes_resize|exact H1].
Qed.
Lemma bytes_runs m : bytes_ok (run_bytes m).
Proof. unfold run_bytes. induction m as [|r m IH]; [constructor|]. cbn [flat_map]. apply bytes_app; [|exact IH]. apply bytes_app; apply le_enc_bytes. Qed.
Lemma bytes_sub s : bytes_ok (sub_bytes s).
Proof. unfold sub_bytes. induction s as [|q s IH]; [constructor|]. cbn [flat_map]. apply bytes_app; [|exact IH]. apply bytes_app; [apply le_enc_bytes|]. apply bytes_app; [apply le_enc_bytes|apply bytes_runs]. Qed.
Lemma bytes_cell x y c : bytes_ok (cell_bytes x y c).
Proof.
  unfold cell_bytes. repeat (apply bytes_app; [apply le_enc_bytes|]). apply bytes_app; [destruct (_ =? _); [constructor|apply bytes_sub]|].
  apply bytes_app; [destruct (_ =? _); [constructor|apply bytes_sub]|]. destruct (_ && _); [apply bytes_runs|constructor].
Qed.
Definition out_bytes (o : out) : Prop := bytes_ok (o_cell o) /\ Forall vlr_bytes (o_vlrs o).
Ltac inj H o := apply Writer_Append.Ok_inj in H; subst o.
Ltac next_put H := match type of H with obind (put ?d ?p ?bs) _ = _ =>
  let E := fresh "E" in destruct (put d p bs) eqn:E; cbn [obind] in H; try discriminate; apply bytes_put in E; [|try assumption|try apply le_enc_bytes] end.
Lemma bytes_init o x y o' : out_bytes o -> init_vlr_data o x y = Ok o' -> out_bytes o'.
Proof.
  intros (H1 & H2) H. unfold init_vlr_data in H. cbn zeta in H. pose proof (bytes_resize vlr_max _ H1) as H3.
  do 6 (next_put H). apply Writer_Append.Ok_inj in H. subst o'. split; assumption.
Qed.
Lemma bytes_data n d : bytes_ok d -> vlr_bytes (data_vlr n d). Proof. exact (fun H => H). Qed.
Lemma bytes_continuation fuel : forall tmp w u d vlrs d' vlrs', bytes_ok tmp -> bytes_ok d -> Forall vlr_bytes vlrs -> continuation fuel tmp w u d vlrs = Ok (d', vlrs') ->
  bytes_ok d' /\ Forall vlr_bytes vlrs'.
Proof.
  induction fuel as [|fuel IH]; intros tmp w u d vlrs d' vlrs' HT HD HV H; cbn [continuation] in H; destruct (u <=? 0); try discriminate.
  - apply Writer_Append.Ok_inj in H. injection H as <- <-. now split.
  - apply Writer_Append.Ok_inj in H. injection H as <- <-. now split.
  - next_put H; [|now apply bytes_firstn, bytes_skipn]. apply IH in H; auto. apply Forall_app. split; [exact HV|]. constructor; [|constructor]. now apply bytes_data.
Qed.
Lemma bytes_output o x y c o' : out_bytes o -> output_cell o x y c = Ok o' -> out_bytes o'.
Proof.
  intros HO H. unfold output_cell in H. pose proof (bytes_cell x y c) as HT.
  apply obind_ok in H. destruct H as (o1 & E1 & H). assert (H1 : out_bytes o1). { destruct (o_first o); [now apply bytes_init in E1|inj E1 o1; exact HO]. }
  clear HO E1. destruct (k_num c =? 0); [inj H o'; exact H1|]. cbn zeta in H. cbn [o_vlrs o_cell o_drs o_pts o_first o_some] in H.
  apply obind_ok in H. destruct H as (o2 & E2 & H). assert (H2 : out_bytes o2).
  { destruct (o_some o1 && _).
    - apply obind_ok in E2. destruct E2 as (o3 & E3 & E2). apply bytes_init in E3.
      + inj E2 o2. exact E3.
      + destruct H1 as (A & B). split; cbn [o_cell o_vlrs]; [now apply bytes_resize|]. apply Forall_app. split; [exact B|]. constructor; [|constructor]. apply bytes_data. now apply bytes_resize.
    - inj E2 o2. exact H1. }
  clear H1 E2. destruct H2 as (A & B). destruct (_ <=? vlr_max).
  - do 4 (next_put H). next_put H; [|exact HT]. inj H o'. split; assumption.
  - assert (A' : bytes_ok (if lenB (o_cell o2) =? vlr_max then o_cell o2 else resize vlr_max (o_cell o2))) by (destruct (_ =? _); [exact A|now apply bytes_resize]).
    do 2 (next_put H). next_put H; [|now apply bytes_firstn]. apply obind_ok in H. destruct H as ((d, vl) & E3 & H). apply bytes_continuation in E3; auto.
    + inj H o'. exact E3.
    + apply Forall_app. split; [exact B|]. constructor; [|constructor]. now apply bytes_data.
Qed.
Lemma bytes_outputs cells : forall o o', out_bytes o -> output_cells o cells = Ok o' -> out_bytes o'.
Proof.
  induction cells as [|((x, y), c) cells IH]; intros o o' HO H; cbn [output_cells] in H; [inj H o'; exact HO|].
  apply obind_ok in H. destruct H as (o1 & E & H). apply bytes_output in E; [|exact HO]. now apply IH in H.
Qed.
Lemma bytes_pad_zero n : forall drs i d d', bytes_ok d -> pad_zero n drs i d = Ok d' -> bytes_ok d'.
Proof.
  induction n as [|n IH]; intros drs i d d' HD H; cbn [pad_zero] in H; [inj H d'; exact HD|].
  destruct (buf_set d _ [0]) eqn:E; [|discriminate]. apply IH in H; [exact H|]. eapply buf_set_bytes; [exact HD| |exact E]. constructor; [unfold is_byte; lia|constructor].
Qed.
Lemma bytes_string s : bytes_ok s -> bytes_ok (put_string s).
Proof. intros H. unfold put_string. apply bytes_app; [apply le_enc_bytes|]. apply bytes_app; [now apply bytes_until_nul, bytes_firstn|]. constructor; [unfold is_byte; lia|constructor]. Qed.
Lemma bytes_ihead h : bytes_ok (ih_author h) -> bytes_ok (ih_comment h) -> bytes_ok (ih_date h) -> bytes_ok (ihead_bytes h).
Proof.
  intros A C D. unfold ihead_bytes. do 2 (apply bytes_app; [apply le_enc_bytes|]). do 3 (apply bytes_app; [now apply bytes_string|]).
  repeat (apply bytes_app; [apply le_enc_bytes|]). apply le_enc_bytes.
Qed.
Lemma write_bytes h cells vlrs : bytes_ok (ih_author h) -> bytes_ok (ih_comment h) -> bytes_ok (ih_date h) -> write_index [] h cells = Ok vlrs -> Forall vlr_bytes vlrs.
Proof.
  intros A C D H. unfold write_index in H. apply obind_ok in H. destruct H as (o & E & H). apply bytes_outputs in E.
  - destruct E as (X & Y). unfold finalize in H. destruct (o_some o); [|inj H vlrs; exact Y]. cbn zeta in H. apply obind_ok in H. destruct H as ((d, drs) & E & H).
    inj H vlrs. apply Forall_app. split; [exact Y|]. constructor; [|constructor]. apply bytes_data, bytes_resize. destruct (negb _ && _).
    + apply obind_ok in E. destruct E as (d1 & E1 & E). apply bytes_pad_zero in E1; [|exact X]. apply Writer_Append.Ok_inj, (f_equal fst) in E; cbn [fst] in E; subst d. exact E1.
    + apply Writer_Append.Ok_inj, (f_equal fst) in E; cbn [fst] in E; subst d. exact X.
  - split; [constructor|]. constructor; [|constructor]. now apply bytes_ihead.
Qed.

(** ** Sizes *)
Definition fits_one (c : placed_cell) : Prop := lenB (pc_bytes c) <= 65511.
Lemma data_vlr_ok n d : n = lenB d -> 0 <= n <= vlr_max -> bytes_ok d -> Reader_Vlrs.vlr_consistent (data_vlr n d).
Proof.
  intros -> H B. unfold vlr_max in H. unfold Reader_Vlrs.vlr_consistent, vlr_wf, data_vlr, in_unsigned. cbn [v_user v_desc v_data v_reserved v_id v_size].
  rewrite Z.mod_small by lia. split; [|reflexivity]. repeat (split; [first [reflexivity|exact B|lia|apply bytes_okb_ok; reflexivity]|]). lia.
Qed.
Lemma head_vlr_ok h : bytes_ok (ih_author h) -> bytes_ok (ih_comment h) -> bytes_ok (ih_date h) -> lenB (ihead_bytes h) <= 1612 -> Reader_Vlrs.vlr_consistent (head_vlr h).
Proof.
  intros A C D L. unfold Reader_Vlrs.vlr_consistent, vlr_wf, head_vlr, in_unsigned. cbn [v_user v_desc v_data v_reserved v_id v_size]. pose proof (bytes_ihead h A C D) as B.
  split; [|reflexivity]. repeat (split; [first [reflexivity|exact B|lia|apply bytes_okb_ok; reflexivity]|]). lia.
Qed.
Definition is_data (v : vlr) : Prop := exists n d, v = data_vlr n d.
Lemma conts_data l vs : conts l vs -> Forall is_data vs.
Proof. induction 1; constructor; [eexists _, _; reflexivity|assumption]. Qed.
Lemma encodes_data gs vs : encodes gs vs -> Forall is_data vs.
Proof.
  induction 1 as [|g ws gs vs G E IH]; [constructor|]. apply Forall_app. split; [|exact IH]. destruct G as [pad|ws]; constructor; try (eexists _, _; reflexivity); [constructor|]. eapply conts_data; eassumption.
Qed.
Lemma encodes_stored gs vs : encodes gs vs -> Forall (fun g => g_size g <= vlr_max) gs -> Forall vlr_bytes vs ->
  Forall Reader_Vlrs.vlr_consistent vs /\ vlrs_size vs <= fold_right (fun g n => 57 + g_size g + n) 0 gs.
Proof.
  induction 1 as [|g ws gs vs G E IH]; intros HS HB.
  - split; [constructor|]. cbn. lia.
  - apply Forall_app in HB. destruct HB as (B1 & B2). pose proof (Forall_inv HS) as S1. apply Forall_inv_tail in HS. destruct (IH HS B2) as (I1 & I2). rewrite vlrs_size_app. cbn [fold_right].
    cbv beta in S1. pose proof (g_data_length g) as LG.
    destruct G as [pad P1 P2|ws P1 P2]; [|lia]. assert (LD : g_size g + lenB pad = lenB (g_data g ++ pad)) by (rewrite app_length; lia).
    split.
    + constructor; [|exact I1]. apply data_vlr_ok; [exact LD|unfold g_size in *; lia|exact (Forall_inv B1)].
    + unfold vlrs_size at 1. cbn [fold_right data_vlr v_data]. lia.
Qed.

(** ** How many bytes *)
Fixpoint sumto (f : Z -> Z) (n : nat) : Z := match n with O => 0 | S n => sumto f n + f (Z.of_nat n) end.
Lemma sumto_add f g n : sumto (fun k => f k + g k) n = sumto f n + sumto g n.
Proof. induction n as [|n IH]; cbn [sumto]; lia. Qed.
Lemma sumto_ext f g n : (forall k, 0 <= k < Z.of_nat n -> f k = g k) -> sumto f n = sumto g n.
Proof. induction n as [|n IH]; intros H; cbn [sumto]; [reflexivity|]. rewrite IH, (H (Z.of_nat n)); try lia. intros k Hk. apply H. lia. Qed.
Lemma sum_in_cell p n : sumto (fun k => if in_cell k p then 1 else 0) n <= 1.
Proof.
  destruct p as [(j, z)|]; cbn [in_cell].
  - assert (K : sumto (fun k => if j =? k then 1 else 0) n = if (0 <=? j) && (j <? Z.of_nat n) then 1 else 0).
    { induction n as [|n IH]; cbn [sumto]; [destruct (0 <=? j) eqn:E1, (j <? Z.of_nat 0) eqn:E2; cbn [andb]; lia|]. rewrite IH.
      destruct (Z.leb_spec 0 j), (Z.ltb_spec j (Z.of_nat n)), (Z.ltb_spec j (Z.of_nat (S n))), (Z.eqb_spec j (Z.of_nat n)); cbn [andb]; lia. }
    rewrite K. destruct (_ && _); lia.
  - induction n as [|n IH]; cbn [sumto]; lia.
Qed.
Lemma sum_ids ps n : sumto (fun k => lenB (ids_of k ps)) n <= lenB ps.
Proof.
  induction ps as [|p ps IH] using rev_ind.
  - cbn [List.length Z.of_nat]. induction n as [|n IH]; cbn [sumto]; [lia|]. change (lenB (ids_of (Z.of_nat n) [])) with 0. lia.
  - rewrite (sumto_ext _ (fun k => lenB (ids_of k ps) + (if in_cell k p then 1 else 0))).
    + rewrite sumto_add, app_length. cbn [List.length]. pose proof (sum_in_cell p n). lia.
    + intros k _. rewrite ids_snoc, app_length. destruct (in_cell k p); cbn [List.length]; lia.
Qed.
Lemma sum_nth {A} (w : A -> Z) (f : Z -> Z) (l : list A) : (forall j x, nth_error l j = Some x -> w x = f (Z.of_nat j)) ->
  fold_right (fun x n => w x + n) 0 l = sumto f (length l).
Proof.
  induction l as [|x l IH] using rev_ind; intros H; [reflexivity|]. rewrite fold_right_app, app_length. cbn [List.length fold_right]. rewrite Nat.add_1_r. cbn [sumto].
  rewrite <- IH.
  - specialize (H (length l) x). rewrite nth_error_app2, Nat.sub_diag in H by lia. rewrite <- (H eq_refl). clear. induction l as [|y l IH]; cbn [fold_right]; lia.
  - intros j y E. apply H. rewrite nth_error_app1; [exact E|]. apply nth_error_Some. congruence.
Qed.
Lemma sum_groups gs : Forall (fun g => g_cells g <> []) gs -> Forall (fun c => lenB (pc_bytes c) <= 60 + 5 * k_num (snd c) /\ 1 <= k_num (snd c)) (cells_of gs) ->
  fold_right (fun g n => 57 + g_size g + n) 0 gs <= fold_right (fun c n => 146 * k_num (snd c) + n) 0 (cells_of gs).
Proof.
  induction gs as [|g gs IH]; intros HN HC; [cbn; lia|]. cbn [fold_right]. unfold cells_of in *. cbn [flat_map] in *. apply Forall_app in HC. destruct HC as (C1 & C2).
  specialize (IH (Forall_inv_tail HN) C2). pose proof (Forall_inv HN) as N1. cbv beta in N1. rewrite fold_right_app.
  assert (K : forall (l : list placed_cell) n, fold_right (fun c n => 146 * k_num (snd c) + n) n l = fold_right (fun c n => 146 * k_num (snd c) + n) 0 l + n).
  { clear. induction l as [|c l IH]; intros n; cbn [fold_right]; [lia|]. rewrite IH. lia. }
  rewrite K. clear K HN C2. change (g_size g) with (24 + lenB (flat_map pc_bytes (g_cells g))). set (cs := g_cells g) in *. clearbody cs.
  assert (B : lenB (flat_map pc_bytes cs) + 81 * lenB cs <= fold_right (fun c n => 146 * k_num (snd c) + n) 0 cs).
  { clear -C1. induction cs as [|c cs IH]; [cbn; lia|]. cbn [flat_map fold_right List.length]. rewrite app_length. specialize (IH (Forall_inv_tail C1)). pose proof (Forall_inv C1) as K. cbv beta in K. lia. }
  destruct cs as [|c cs]; [congruence|]. cbn [List.length] in B |- *. lia.
Qed.

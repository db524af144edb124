(** C74, continued: malformed options are refused, and --delete-vlr takes all its
    pairs. *)
From Coq Require Import ZArith List Bool Lia String.
Import ListNotations.
From Verif Require Import Outcome Bytes Float64 CStr Schema_Model Header_Model Vlr_Model Point_Model Stream_Model
  Reader_Model Writer_Model Writer_Append Las2las_Model Cli_Model Cli_Spec Cli_Proofs Hdropt_Model Hdropt_Spec Hdropt_Proofs Prop_Srs Prop_Hdropt2.
Local Open Scope Z_scope.
Local Notation length := List.length (only parsing).

(** Options that do not have the form the help text gives them. *)
Inductive malformed (readraw : text -> option (list Z)) (o : hopts) : Prop :=
| mal_scale l : a_scale o = Some l -> length l <> 3%nat -> malformed readraw o
| mal_version a b m n : a_file_format o = Some (a ++ [46] ++ b) -> numeral a m -> numeral b n -> m < 2 ^ 31 -> 2 < n < 2 ^ 31 -> malformed readraw o
| mal_version_short a m : a_file_format o = Some a -> numeral a m -> m < 2 ^ 31 -> malformed readraw o
| mal_format k : a_point_format o = Some k -> 3 < k -> malformed readraw o
| mal_pad s : a_pad o = Some s -> numeral s 0 -> malformed readraw o
| mal_day d y m n : a_creation o = Some [d; y] -> numeral d m -> numeral y n -> 366 < m < 2 ^ 31 -> n < 2 ^ 31 -> malformed readraw o
| mal_pairs l k : a_delete_vlr o = Some l -> length l = (2 * k + 1)%nat -> malformed readraw o
| mal_delete_id name id n : a_delete_vlr o = Some [name; id] -> numeral id n -> 65535 < n < 2 ^ 31 -> malformed readraw o
| mal_vlr_words l : a_add_vlr o = Some l -> (length l < 3 \/ 4 < length l)%nat -> malformed readraw o
| mal_vlr_id user id n rest : a_add_vlr o = Some (user :: id :: rest) -> numeral id n -> 65535 < n < 2 ^ 31 -> malformed readraw o
| mal_vlr_size user id what d : a_add_vlr o = Some [user; id; what] -> readraw what = Some d -> 65535 < Z.of_nat (length d) -> malformed readraw o
| mal_vlr_size_text user id what : a_add_vlr o = Some [user; id; what] -> readraw what = None -> 65535 < Z.of_nat (length what) -> malformed readraw o
| mal_software s : a_software o = Some s -> (32 < length s)%nat -> malformed readraw o
| mal_system s : a_system o = Some s -> (32 < length s)%nat -> malformed readraw o.

Lemma bind_ok {A B} (x : outcome A) (f : A -> outcome B) b : obind x f = Ok b -> exists a, x = Ok a /\ f a = Ok b.
Proof. destruct x; cbn [obind]; try discriminate; eauto. Qed.
Lemma numeral_no_dot s v : numeral s v -> s <> [] /\ Forall (fun c => existsb (Z.eqb c) [46] = false) s.
Proof.
  intros H. destruct (numeral_chars s v H) as (N & _ & F). split; [exact N|]. eapply Forall_impl; [|exact F]. cbn. intros c Hc. destruct (Z.eqb_spec c 46); [lia|reflexivity].
Qed.
Lemma vlr_id_big id n : numeral id n -> 65535 < n < 2 ^ 31 -> vlr_id id = Throw ERuntime.
Proof. intros H B. unfold vlr_id. rewrite (atoi_ok id n H) by lia. cbn [obind]. destruct (Z.ltb_spec n 0); [lia|]. destruct (Z.ltb_spec 65535 n); [reflexivity|lia]. Qed.

Lemma edit_refuses atof readraw t o h h' : malformed readraw o -> edit_header atof readraw t o h <> Ok h'.
Proof.
  intros M E. unfold edit_header in E. cbv zeta in E.
  apply bind_ok in E as (h1 & _ & E). apply bind_ok in E as (h2 & E2 & E). apply bind_ok in E as (h3 & E3 & E). apply bind_ok in E as (h4 & E4 & E). apply bind_ok in E as (h5 & E5 & E).
  apply bind_ok in E as (h6 & E6 & E). apply bind_ok in E as (h7 & E7 & E). apply bind_ok in E as (h8 & E8 & E). apply bind_ok in E as (h9 & E9 & E10).
  destruct M as [l O L|a b m n O Ha Hb La Lb|a m O Ha La|k O L|s O H|d y m n O Hd Hy Ld Ly|l k O L|name id n O H L|l O L|user id n rest O H L|user id what d O H L|user id what O H L|s O L|s O L].
  - rewrite O in E2. cbn [when_given] in E2. unfold edit_scale in E2. destruct l as [|? [|? [|? [|? ?]]]]; try discriminate. cbn in L. lia.
  - rewrite O in E3. cbn [when_given] in E3. unfold edit_file_format in E3. destruct (numeral_no_dot a m Ha) as (Na & Fa). destruct (numeral_no_dot b n Hb) as (Nb & Fb).
    rewrite tokens_sep in E3 by (auto; reflexivity). rewrite tokens_one in E3 by auto. cbn [atois] in E3. rewrite (atoi_ok a m Ha La), (atoi_ok b n Hb) in E3 by lia. cbn [obind] in E3.
    destruct (Z.ltb_spec 2 n); [discriminate|lia].
  - rewrite O in E3. cbn [when_given] in E3. unfold edit_file_format in E3. destruct (numeral_no_dot a m Ha) as (Na & Fa).
    rewrite tokens_one in E3 by auto. cbn [atois] in E3. rewrite (atoi_ok a m Ha La) in E3. cbn [obind] in E3. discriminate.
  - rewrite O in E4. cbn [when_given] in E4. unfold edit_point_format in E4. destruct (Z.ltb_spec 3 k); [discriminate|lia].
  - rewrite O in E5. cbn [when_given] in E5. unfold edit_pad in E5. rewrite (atoi_ok s 0 H) in E5 by lia. discriminate.
  - rewrite O in E6. cbn [when_given] in E6. unfold edit_creation in E6. rewrite (atoi_ok d m Hd), (atoi_ok y n Hy) in E6 by lia. cbn [obind] in E6.
    destruct (Z.ltb_spec m 0); [discriminate|]. destruct (Z.ltb_spec 366 m); [discriminate|lia].
  - rewrite O in E7. cbn [when_given] in E7. unfold edit_delete in E7. rewrite L in E7. replace (Nat.odd (2 * k + 1)) with true in E7; [discriminate|].
    symmetry. rewrite Nat.odd_spec. exists k. lia.
  - rewrite O in E7. cbn [when_given] in E7. unfold edit_delete in E7. cbn [List.length Nat.odd Nat.even negb delete_pairs] in E7. rewrite (vlr_id_big id n H L) in E7. discriminate.
  - rewrite O in E8. cbn [when_given] in E8. unfold edit_add in E8. destruct l as [|u [|i [|r1 [|r2 [|r3 l]]]]]; cbn [List.length obind] in *; try discriminate; lia.
  - rewrite O in E8. cbn [when_given] in E8. unfold edit_add in E8. apply bind_ok in E8 as ((desc & what) & _ & E8). apply bind_ok in E8 as (v & _ & E8). rewrite (vlr_id_big id n H L) in E8. discriminate.
  - rewrite O in E8. cbn [when_given] in E8. unfold edit_add in E8. cbn [obind] in E8. apply bind_ok in E8 as (v & _ & E8). apply bind_ok in E8 as (n & _ & E8).
    unfold vlr_payload in E8. rewrite H in E8. destruct d as [|c d]; [cbn in L; lia|]. cbn [obind] in E8. destruct (Z.ltb_spec 65535 (Z.of_nat (length (c :: d)))); [discriminate|lia].
  - rewrite O in E8. cbn [when_given] in E8. unfold edit_add in E8. cbn [obind] in E8. apply bind_ok in E8 as (v & _ & E8). apply bind_ok in E8 as (n & _ & E8).
    unfold vlr_payload in E8. rewrite H in E8. cbn [obind] in E8. destruct (Z.ltb_spec 65535 (Z.of_nat (length what))); [discriminate|lia].
  - rewrite O in E9. cbn [when_given] in E9. unfold set_software_id in E9. change eSoftwareIdSize with 32%nat in E9. destruct (Nat.ltb_spec 32 (length s)); [discriminate|lia].
  - rewrite O in E10. cbn [when_given] in E10. unfold set_system_id in E10. change eSystemIdSize with 32%nat in E10. destruct (Nat.ltb_spec 32 (length s)); [discriminate|lia].
Qed.
(** A run with a malformed option writes no file, whatever the other options are. *)
Theorem C74_rejected : forall atof readraw t o FS mb sp (flt : option (FS -> point -> bool * FS)) fs fuel F, malformed readraw o ->
  forall Gs, las2las_edit atof readraw t o mb sp flt fs fuel F <> Ok Gs.
Proof.
  intros atof readraw t o FS mb sp flt fs fuel F M Gs E. unfold las2las_edit in E. apply bind_ok in E as (r & _ & E). apply bind_ok in E as (h & E & _). exact (edit_refuses _ _ _ _ _ _ M E).
Qed.
Print Assumptions C74_rejected.

(** --delete-vlr with any number of pairs leaves exactly the VLRs that none of the
    pairs names, in their order, in the header the new file is begun with. *)
Inductive pairs_text : list (text * Z) -> list text -> Prop :=
| pt_nil : pairs_text [] []
| pt_cons name id n ps l : numeral id n -> n <= 65535 -> pairs_text ps l -> pairs_text ((name, n) :: ps) (name :: id :: l).
Definition named_by (ps : list (text * Z)) (v : vlr) : Prop := exists name n, In (name, n) ps /\ until_nul (v_user v) = name /\ v_id v = n.
Lemma pairs_even ps l : pairs_text ps l -> Nat.odd (length l) = false.
Proof. induction 1 as [|name id n ps l _ _ _ IH]; [reflexivity|]. cbn [List.length]. rewrite Nat.odd_succ, Nat.even_succ. exact IH. Qed.
Lemma kept_weaken {A} (P Q : A -> Prop) l r : kept_in_order P l r -> (forall a, In a l -> (P a <-> Q a)) -> kept_in_order Q l r.
Proof.
  induction 1 as [|a l r Ha _ IH|a l r Ha _ IH]; intros H; [constructor| |].
  - apply kio_keep; [now apply (H a (or_introl eq_refl))|]. apply IH. intros b Hb. apply H. now right.
  - apply kio_drop; [intros X; apply Ha; now apply (H a (or_introl eq_refl))|]. apply IH. intros b Hb. apply H. now right.
Qed.
Lemma kept_twice {A} (P Q : A -> Prop) l m r : kept_in_order P l m -> kept_in_order Q m r -> kept_in_order (fun a => P a /\ Q a) l r.
Proof.
  intros H. revert r. induction H as [|a l m Ha _ IH|a l m Ha _ IH]; intros r K.
  - inversion K. constructor.
  - inversion K; subst; [apply kio_keep; auto|apply kio_drop; [tauto|auto]].
  - apply kio_drop; [tauto|auto].
Qed.
Lemma pairs_deleted ps l : pairs_text ps l -> forall h, exists h', delete_pairs l h = Ok h' /\ kept_in_order (fun v => ~ named_by ps v) (h_vlrs h) (h_vlrs h').
Proof.
  induction 1 as [|name id n ps l Hid L _ IH]; intros h.
  - exists h. split; [reflexivity|]. induction (h_vlrs h) as [|v vs IH]; [constructor|]. apply kio_keep; [|exact IH]. intros (? & ? & [] & _).
  - destruct (IH (delete_vlrs h name n)) as (h' & E & K). exists h'. split.
    + cbn [delete_pairs]. unfold vlr_id. pose proof (proj1 (proj2 (numeral_chars id n Hid))) as P. rewrite (atoi_ok id n Hid) by lia. cbn [obind].
      destruct (Z.ltb_spec n 0); [lia|]. destruct (Z.ltb_spec 65535 n); [lia|]. exact E.
    + assert (S : kept_in_order (fun v => ~ (until_nul (v_user v) = name /\ v_id v = n)) (h_vlrs h) (h_vlrs (delete_vlrs h name n))).
      { apply filter_kept. intros v. unfold same_vlr. rewrite negb_true_iff, andb_false_iff, Z.eqb_neq. unfold vlr_get_user. cbn [andb].
        destruct (zlist_eqb (until_nul (v_user v)) name) eqn:X; [apply zlist_eqb_spec in X; split; [intros [?|?]; [discriminate|tauto]|intros Y; right; tauto]|].
        split; [|auto]. intros _ (Y & _). apply zlist_eqb_spec in Y. congruence. }
      apply (kept_weaken _ _ _ _ (kept_twice _ _ _ _ _ S K)). intros v _. unfold named_by. split.
      * intros (A & B) (nm & k & [I|I] & U & D); [apply pair_equal_spec in I as (-> & ->); tauto|apply B; exists nm, k; tauto].
      * intros A. split; [intros (U & D); apply A; exists name, n; split; [now left|auto]|]. intros (nm & k & I & U & D). apply A. exists nm, k. split; [now right|auto].
Qed.
Theorem C74_delete_all : forall atof readraw t ps l h, pairs_text ps l -> exists h', edit_header atof readraw t (only_delete l) h = Ok h' /\
  kept_in_order (fun v => ~ named_by ps v) (h_vlrs h) (h_vlrs h').
Proof.
  intros atof readraw t ps l h H. destruct (pairs_deleted ps l H h) as (h' & E & K). exists h'. split; [|exact K].
  unfold edit_header, only_delete. cbn [a_offset a_scale a_file_format a_point_format a_pad a_creation a_add_schema a_delete_vlr a_add_vlr a_software a_system when_given obind].
  unfold edit_delete. rewrite (pairs_even ps l H), E. reflexivity.
Qed.
Print Assumptions C74_delete_all.
(** Cases: "1.3", an odd list, and two pairs. *)
Theorem C74_rejected_instance : malformed (fun _ => None) (only_version [49; 46; 51]) /\ malformed (fun _ => None) (only_delete [[97]; [53]; [98]]) /\
  pairs_text [([97], 5); ([98], 6)] [[97]; [53]; [98]; [54]].
Proof.
  assert (D : forall d, 0 <= d <= 9 -> numeral [48 + d] d) by (intros; now constructor).
  split; [apply (mal_version _ _ [49] [51] 1 3); [reflexivity|exact (D 1 ltac:(lia))|exact (D 3 ltac:(lia))|lia|lia]|].
  split; [apply (mal_pairs _ _ [[97]; [53]; [98]] 1); reflexivity|].
  apply pt_cons; [exact (D 5 ltac:(lia))|lia|]. apply pt_cons; [exact (D 6 ltac:(lia))|lia|]. apply pt_nil.
Qed.
Print Assumptions C74_rejected_instance.
(** Deleting and adding in one call: the deletions come first, so a VLR can be
    replaced by one of the same name. *)
Definition replace_vlr (l w : list text) : hopts := mkHopts None None None None None None false (Some l) (Some w) None None.
Lemma deleted_count ps l : pairs_text ps l -> forall h h', delete_pairs l h = Ok h' -> in_unsigned 32 (h_nvlr h) -> in_unsigned 32 (h_nvlr h').
Proof.
  induction 1 as [|name id n ps l Hid L _ IH]; intros h h' E U; cbn [delete_pairs] in E; [apply Writer_Append.Ok_inj in E; now subst h'|].
  apply bind_ok in E as (k & _ & E). apply (IH _ _ E). unfold delete_vlrs. cbv zeta. cbn [h_nvlr h_upd_vlrs]. unfold in_unsigned. apply Z.mod_pos_bound. lia.
Qed.
Theorem C74_replace : forall atof readraw t ps l v w h, pairs_text ps l -> vlr_text readraw v w -> in_unsigned 32 (h_nvlr h) ->
  exists h' vs, edit_header atof readraw t (replace_vlr l w) h = Ok h' /\ kept_in_order (fun v => ~ named_by ps v) (h_vlrs h) vs /\ h_vlrs h' = vs ++ [the_vlr v].
Proof.
  intros atof readraw t ps l v w h H V U. destruct (pairs_deleted ps l H h) as (h1 & E & K).
  destruct (edit_add_ok atof readraw (mkChange None None None None None (Some v) None None) (Some w) h1 V (deleted_count ps l H h h1 E U)) as (n & A & _).
  exists (h_upd_vlrs h1 n (h_vlrs h1 ++ [the_vlr v])), (h_vlrs h1). split; [|split; [exact K|reflexivity]].
  unfold edit_header, replace_vlr. cbn [a_offset a_scale a_file_format a_point_format a_pad a_creation a_add_schema a_delete_vlr a_add_vlr a_software a_system when_given obind].
  unfold edit_delete. rewrite (pairs_even ps l H), E. cbn [obind]. cbn [when_given] in A. rewrite A. reflexivity.
Qed.
Print Assumptions C74_replace.

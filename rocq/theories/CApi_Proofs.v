(** Proofs about the C API model: reports. *)
From Coq Require Import ZArith List Bool String Lia.
Import ListNotations.
From Verif Require Import Outcome Bytes CStr Float64 Float64_Proofs Endian_Model Classif_Model Vlr_Model Schema_Model Header_Model Point_Model Point_Spec Point_Api Coord_Api Stream_Model Reader_Model Reader_Api IO_Spec Reader_Spec Reader_Hist Writer_Append CApi_Model CApi_Spec.
Local Open Scope Z_scope.
Local Notation length := List.length (only parsing).

Definition good (c : call) (s : cst) (o : outcome (cst * res)) : Prop :=
  forall t r, o = Ok (t, r) ->
    (c_errs t = c_errs s /\ (returns_status c = true -> r = Num 0)) \/
    (error_added c s t /\ failure_answer c r /\ (returns_status c = true -> sets_format c = false -> same_objects s t)).

Lemma prefix_refl m : String.prefix m m = true.
Proof. induction m; cbn; [reflexivity|]. destruct (Ascii.ascii_dec a a); [exact IHm|congruence]. Qed.
Lemma prefix_app m k : String.prefix m (m ++ k) = true.
Proof. induction m; cbn; [now destruct k|]. destruct (Ascii.ascii_dec a a); [exact IHm|congruence]. Qed.

Lemma good_fail c s rc : failure_answer c rc -> good c s (fail s (name_of c) rc).
Proof.
  intros F t r E. unfold fail in E. apply Writer_Append.Ok_inj in E. apply (f_equal fst) in E as E1. apply (f_equal snd) in E as E2. cbn [fst snd] in *. subst t r.
  right. split; [|split; [exact F|]]. { eexists. split; [reflexivity|]. split; [reflexivity|apply prefix_refl]. }
  intros _ _. repeat split.
Qed.
Lemma good_bind {A} c s (o : outcome A) k : (forall x, o = Ok x -> good c s (k x)) -> good c s (obind o k).
Proof. intros H. destruct o; cbn; [now apply H| |]; intros ? ? E; discriminate. Qed.
Lemma good_valid {A} c s rc (l : list (option A)) p k : failure_answer c rc -> (forall n x, object l n = Ok x -> good c s (k n x)) -> good c s (valid s (name_of c) rc l p k).
Proof. intros F H. destruct p; cbn; [now apply good_fail|]. apply good_bind. auto. Qed.
Lemma good_hdr_valid c s rc p k : failure_answer c rc -> (forall n x, object (c_hdrs s) n = Ok (Some x) -> good c s (k n x)) -> good c s (hdr_valid s (name_of c) rc p k).
Proof. intros F H. destruct p; cbn; [intros ? ? E; discriminate|]. apply good_bind. intros [x|] X; [now apply H|now apply good_fail]. Qed.
Lemma good_pt_valid dh c s rc p k : failure_answer c rc -> (forall x, good c s (k x)) -> good c s (pt_valid dh s (name_of c) rc p k).
Proof. intros F H. destruct p; cbn [pt_valid]; [now apply good_fail| |]; apply good_bind; intros [x y] _; apply H. Qed.
Lemma good_ok c s t r : c_errs t = c_errs s -> (returns_status c = true -> r = Num 0) -> good c s (Ok (t, r)).
Proof. intros E H t' r' X. apply Writer_Append.Ok_inj in X. apply (f_equal fst) in X as E1. apply (f_equal snd) in X as E2. cbn [fst snd] in *. subst. left. auto. Qed.
Lemma good_tried c s o : failure_answer c (Num 3) -> (forall t, o = Ok t -> c_errs t = c_errs s) -> good c s (tried s (name_of c) o).
Proof. intros F H. destruct o; cbn [tried]; [apply good_ok; auto|now apply good_fail|intros ? ? E; discriminate]. Qed.
Lemma good_ub c s u : good c s (UB u).
Proof. intros ? ? E. discriminate. Qed.
Lemma good_throw c s u : good c s (Throw u).
Proof. intros ? ? E. discriminate. Qed.
Lemma good_fail' c s s' m rc : returns_status c = false \/ sets_format c = true -> failure_answer c rc -> c_errs s' = c_errs s -> String.prefix (name_of c) m = true ->
  good c s (fail s' m rc).
Proof.
  intros R F E P t r X. unfold fail in X. apply Writer_Append.Ok_inj in X. apply (f_equal fst) in X as E1. apply (f_equal snd) in X as E2. cbn [fst snd] in *. subst t r.
  right. split; [|split; [exact F|]]. { eexists. split; [unfold push; cbn; now rewrite E|]. split; [reflexivity|exact P]. }
  intros K K'. destruct R; congruence.
Qed.
Lemma put_data_errs s p d : c_errs (put_data s p d) = c_errs s.
Proof. destruct p; cbn; [reflexivity| |]; [destruct (nth_error (c_pts s) n) as [[]|]|destruct (nth_error (c_rdrs s) n) as [[]|]]; reflexivity. Qed.
Lemma bind_ok {A B} (o : outcome A) (k : A -> outcome B) b : obind o k = Ok b -> exists a, o = Ok a /\ k a = Ok b.
Proof. destruct o; cbn; try discriminate. eauto. Qed.

Lemma list_set_same {A} (l : list A) n x : nth_error l n = Some x -> list_set l n x = l.
Proof. revert n. induction l; intros [|n] E; cbn in *; try discriminate; [congruence|]. now rewrite IHl. Qed.
Lemma object_ok {A} (l : list (option A)) n x : object l n = Ok x <-> nth_error l n = Some (Some x).
Proof. unfold object. destruct (nth_error l n) as [[y|]|]; split; intros E; try discriminate; congruence. Qed.
Lemma put_hdr_same s n h : object (c_hdrs s) n = Ok (Some h) -> put_hdr s n h = s.
Proof. intros O. apply object_ok in O. unfold put_hdr, put, set_hdrs. rewrite list_set_same by exact O. now destruct s. Qed.

Ltac stat := first [reflexivity | cbn; reflexivity | intros; discriminate | intros; reflexivity].
Ltac peel := intros ? X; repeat (apply bind_ok in X; destruct X as (? & _ & X)); apply Writer_Append.Ok_inj in X; subst; first [reflexivity | apply put_data_errs].

Lemma reports dh xml doy year s c : about_errors c = false -> is_seek_call c = false -> good c s (cstep dh xml doy year s c).
Proof.
  intros A B. destruct c; try discriminate A; try discriminate B; unfold cstep; cbv zeta.
  - apply good_ok; stat.
  - apply good_valid; [stat|]. intros. apply good_ok; stat.
  - apply good_valid; [stat|]. intros. apply good_ok; stat.
  - apply good_valid; [stat|]. intros. apply good_ok; stat.
  - apply good_valid; [stat|]. intros. apply good_ok; stat.
  - apply good_valid; [stat|]. intros. apply good_tried; [stat|peel].
  - apply good_valid; [stat|]. intros. destruct (_ || _); [apply good_ub|apply good_ok; stat].
  - apply good_valid; [stat|]. intros. destruct (_ <? _)%nat; [apply good_ub|apply good_ok; stat].
  - apply good_bind. intros. apply good_ok; stat.
  - apply good_valid; [stat|]. intros. apply good_ok; stat.
  - destruct h; [apply good_ub|]. apply good_bind. intros. apply good_ok; stat.
  - apply good_hdr_valid; [stat|]. intros. apply good_hdr_valid; [stat|]. intros. apply good_bind. intros. apply good_ok; stat.
  - apply good_hdr_valid; [stat|]. intros. apply good_ok; stat.
  - assert (G : forall n y, object (c_hdrs s) n = Ok (Some y) -> good (HdrSetN a h x) s
      match hnum_set a y x with (x', Ok _) => Ok (put_hdr s n x', Num LE_None) | (x', Throw _) => fail (put_hdr s n x') (name_of (HdrSetN a h x)) (Num LE_Failure) | (_, UB u) => UB u end).
    { intros n y O. destruct (hnum_set a y x) as (y', [u|e|u]) eqn:K; [apply good_ok; stat| |apply good_ub].
      assert (Y : sets_format (HdrSetN a h x) = true \/ y' = y).
      { revert K. destruct a; cbn; try (now left); try discriminate; unfold set_version_major, set_version_minor.
        - destruct (_ || _); [|discriminate]. intros K. right. now apply (f_equal fst) in K.
        - destruct (_ <? _); [|discriminate]. intros K. right. now apply (f_equal fst) in K. }
      destruct Y as [Y|Y]; [apply good_fail'; [now right|stat|stat|apply prefix_refl]|]. subst y'. rewrite put_hdr_same; [|exact O]. apply good_fail. stat. }
    destruct a; try (apply good_hdr_valid; [stat|]; exact G).
    apply good_valid; [stat|]. intros n [y|] O; [now apply G|apply good_ub].
  - apply good_hdr_valid; [stat|]. intros. apply good_ok; stat.
  - apply good_hdr_valid; [stat|]. intros. apply good_ok; stat.
  - apply good_hdr_valid; [stat|]. intros. apply good_ok; stat.
  - apply good_hdr_valid; [stat|]. intros. apply good_tried; [stat|peel].
  - apply good_hdr_valid; [stat|]. intros. apply good_ok; stat.
  - apply good_hdr_valid; [stat|]. intros. apply good_ok; stat.
  - apply good_hdr_valid; [stat|]. intros. destruct (_ && _); [|apply good_ok; stat]. apply good_bind. intros. apply good_ok; stat.
  - apply good_hdr_valid; [stat|]. intros. apply good_tried; [stat|peel].
  - apply good_hdr_valid; [stat|]. intros. apply good_bind. intros. apply good_ok; stat.
  - apply good_hdr_valid; [stat|]. intros. apply good_tried; [stat|peel].
  - apply good_hdr_valid; [stat|]. intros. apply good_valid; [stat|]. intros. apply good_ok; stat.
  - apply good_ok; stat.
  - apply good_bind. intros [q r] _. apply good_ok; stat.
  - destruct p; [apply good_fail; stat| |apply good_ub]. apply good_bind. intros. apply good_ok; stat.
  - destruct p, q; try (apply good_fail; stat); apply good_ok; stat.
  - destruct p; [apply good_fail'; [now left|cbn; eauto|stat|apply prefix_refl]| |]; apply good_bind; intros [q r] _; apply good_ok; stat.
  - apply good_valid; [stat|]. intros n [y|] _; [|apply good_ub]. apply good_bind. intros [q r] _. apply good_bind. intros. apply good_ok; stat.
  - apply good_pt_valid; [stat|]. intros. apply good_bind. intros. apply good_ok; stat.
  - apply good_pt_valid; [stat|]. intros. apply good_tried; [stat|peel].
  - apply good_pt_valid; [stat|]. intros. apply good_bind. intros. apply good_ok; stat.
  - apply good_pt_valid; [stat|]. intros. apply good_tried; [stat|peel].
  - apply good_pt_valid; [stat|]. intros q. destruct (get_time q); [apply good_ok; stat| |apply good_ub]. destruct (is_runtime e); [apply good_ok; stat|apply good_throw].
  - apply good_pt_valid; [stat|]. intros q. destruct (set_time q t); [apply good_ok; [apply put_data_errs|stat]| |apply good_ub]. destruct (is_runtime e); [apply good_ok; stat|apply good_fail; stat].
  - apply good_pt_valid; [stat|]. intros q. destruct (get_color q); [apply good_ok; stat| |apply good_ub]. destruct (is_runtime e); [apply good_ok; stat|apply good_throw].
  - apply good_pt_valid; [stat|]. intros q. destruct (set_color q c); [apply good_ok; [apply put_data_errs|stat]| |apply good_ub]. destruct (is_runtime e); [apply good_ok; stat|apply good_fail; stat].
  - apply good_pt_valid; [stat|]. intros. destruct (_ || _); [apply good_ub|apply good_ok; stat].
  - apply good_pt_valid; [stat|]. intros. destruct (_ || _); [apply good_ub|apply good_ok; [apply put_data_errs|stat]].
  - apply good_pt_valid; [stat|]. intros. apply good_bind. intros. apply good_ok; stat.
  - apply good_pt_valid; [stat|]. intros. apply good_bind. intros. apply good_ok; stat.
  - destruct (reader_open xml doy year file); [apply good_ok; stat|apply good_fail; stat|apply good_ub].
  - apply good_valid; [stat|]. intros. apply good_ok; stat.
  - destruct r; [apply good_fail'; [now left|cbn; eauto|stat|apply prefix_refl]|]. apply good_bind. intros. apply good_ok; stat.
  - apply good_valid; [stat|]. intros n x _. destruct (reader_next no_filter no_transform x tt) as (rf, [[]|e|u]); try (apply good_ok; stat); [|apply good_ub].
    apply good_fail'; [now left|stat|stat|]. destruct e; try apply prefix_refl. apply prefix_app.
  - apply good_valid; [stat|]. intros n x _. destruct (reader_at no_transform x i) as (rf, [[]|e|u]); try (apply good_ok; stat); [|apply good_ub].
    apply good_fail'; [now left|stat|stat|]. destruct e; try apply prefix_refl. apply prefix_app.
Qed.

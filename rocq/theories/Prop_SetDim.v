(** C51: Schema::SetDimension.

    [dims_of s]: the dimensions a schema holds, in insertion order (what
    GetDimension(index) enumerates). *)
From Coq Require Import ZArith List Bool Lia String.
Import ListNotations.
From Verif Require Import Outcome Bytes Schema_Model Schema_Spec Schema_Api Schema_Proofs.
Local Open Scope Z_scope.
Local Notation length := List.length (only parsing).

(** some dimension of another name sits at the position of [d] *)
Definition position_taken (s : schema) (d : dim) : Prop :=
  exists x, In x (s_dims s) /\ d_pos x = d_pos d /\ d_name x <> d_name d.

Lemma taken_spec (s : schema) (d : dim) :
  existsb (fun x => (d_pos x =? d_pos d) && negb (String.eqb (d_name x) (d_name d))) (s_dims s) = true <-> position_taken s d.
Proof.
  unfold position_taken. rewrite existsb_exists. split; intros (x & H); exists x.
  - destruct H as (H & K). apply andb_prop in K as (K1 & K2). apply Z.eqb_eq in K1. apply negb_true_iff, String.eqb_neq in K2. auto.
  - destruct H as (H & K1 & K2). split; [exact H|]. apply andb_true_intro. split; [now apply Z.eqb_eq|]. now apply negb_true_iff, String.eqb_neq.
Qed.

(** Setting a dimension whose name the schema knows and whose position no other
    dimension has: it takes the place of the one of that name, every other one,
    the number of dimensions, the format and the sizes stay. *)
Theorem C51_replace : forall s d,
  In (d_name d) (map d_name (s_dims s)) -> ~ position_taken s d ->
  exists s', set_dimension s d = Ok s' /\
    length (s_dims s') = length (s_dims s) /\
    (forall i x, nth_error (s_dims s) i = Some x -> d_name x = d_name d -> nth_error (s_dims s') i = Some d) /\
    (forall i x, nth_error (s_dims s) i = Some x -> d_name x <> d_name d -> nth_error (s_dims s') i = Some x) /\
    get_dimension s' (d_name d) = Some d /\
    (forall n, n <> d_name d -> get_dimension s' n = get_dimension s n) /\
    s_format s' = s_format s /\ schema_bytes s' = schema_bytes s /\ schema_base_bytes s' = schema_base_bytes s.
Proof.
  intros s d Hin Hp. unfold set_dimension. destruct (find_name_some _ _ Hin) as (d0 & -> & _ & _).
  eexists. split; [reflexivity|]. unfold schema_bytes, schema_base_bytes, get_dimension. cbn [s_dims s_format s_bits s_basebits]. unfold mi_replace.
  destruct (existsb _ _) eqn:Ex; [apply taken_spec in Ex; contradiction|]. clear Ex Hp.
  assert (G : find_name (map (fun x => if String.eqb (d_name x) (d_name d) then d else x) (s_dims s)) (d_name d) = Some d).
  { revert Hin. unfold find_name. induction (s_dims s) as [|x l IH]; cbn [map In find]; [tauto|]. intros H.
    destruct (String.eqb_spec (d_name x) (d_name d)) as [E|E].
    - now rewrite String.eqb_refl.
    - apply String.eqb_neq in E as E'. rewrite E'. apply IH. tauto. }
  split; [apply map_length|]. split; [|split; [|split; [exact G|split; [|auto]]]].
  - intros i x Hi Hx. rewrite nth_error_map, Hi. cbn [option_map]. apply String.eqb_eq in Hx. now rewrite Hx.
  - intros i x Hi Hx. rewrite nth_error_map, Hi. cbn [option_map]. apply String.eqb_neq in Hx. now rewrite Hx.
  - intros n Hn. unfold find_name. clear G Hin. induction (s_dims s) as [|x l IH]; cbn [map find]; [reflexivity|].
    destruct (String.eqb_spec (d_name x) (d_name d)) as [E|E].
    + assert (F : (d_name d =? n)%string = false) by (apply String.eqb_neq; congruence). rewrite E, F. exact IH.
    + destruct (String.eqb (d_name x) n); [reflexivity|exact IH].
Qed.
Print Assumptions C51_replace.

(** An unknown name throws. *)
Theorem C51_unknown : forall s d, ~ In (d_name d) (map d_name (s_dims s)) -> set_dimension s d = Throw ERuntime.
Proof. intros s d H. unfold set_dimension. now rewrite find_name_none. Qed.
Print Assumptions C51_unknown.

(** A position another dimension has: the call returns normally and the schema is
    unchanged, so the dimension just set is not the one read back. *)
Theorem C51_clash : forall s d, In (d_name d) (map d_name (s_dims s)) -> position_taken s d -> set_dimension s d = Ok s.
Proof.
  intros s d Hin Hp. unfold set_dimension. destruct (find_name_some _ _ Hin) as (d0 & -> & _ & _). unfold mi_replace.
  apply taken_spec in Hp. rewrite Hp. now destruct s.
Qed.
Print Assumptions C51_clash.

Definition a_schema : schema := match schema_new 1 with Ok s => s | _ => mkSchema 0 0 0 0 [] end.
(** A new dimension object for "Time", made the way a caller makes one (its
    position is 0, that of "X"). *)
Definition time_of (bits pos : Z) : dim := mkDim "Time" bits true true true true true pos 20 0.

(** The statement one would want: after SetDimension the dimension is read back. *)
Theorem C51_read_back_refuted :
  ~ (forall s d, (exists fmt, 0 <= fmt <= 3 /\ schema_new fmt = Ok s) -> In (d_name d) (map d_name (s_dims s)) ->
       exists s', set_dimension s d = Ok s' /\ get_dimension s' (d_name d) = Some d).
Proof.
  intros H. destruct (H a_schema (time_of 64 0)) as (s' & E & G).
  - exists 1. split; [lia|]. vm_compute. reflexivity.
  - vm_compute. tauto.
  - rewrite C51_clash in E.
    + apply (f_equal (fun o => match o with Ok x => get_dimension x "Time"%string | _ => None end)) in E. change (get_dimension s' "Time"%string = Some (time_of 64 0)) in G. rewrite <- E in G. vm_compute in G. discriminate.
    + vm_compute. tauto.
    + exists (mkDim "X" 32 true true true true true 0 0 0). split; [vm_compute; tauto|]. split; [reflexivity|discriminate].
Qed.
Print Assumptions C51_read_back_refuted.

Definition time_pos : Z := match get_dimension a_schema "Time"%string with Some x => d_pos x | None => 0 end.
Definition short_schema : schema := match set_dimension a_schema (time_of 32 time_pos) with Ok s => s | _ => a_schema end.

Lemma short_free : ~ position_taken a_schema (time_of 32 time_pos).
Proof.
  intros H. apply taken_spec in H. vm_compute in H. discriminate H.
Qed.

(** ... and the record length is the sum of the sizes of the dimensions. *)
Theorem C51_size_refuted :
  ~ (forall s d s', (exists fmt, 0 <= fmt <= 3 /\ schema_new fmt = Ok s) -> set_dimension s d = Ok s' -> ~ position_taken s d ->
       8 * schema_bytes s' = fold_right Z.add 0 (map d_bits (s_dims s'))).
Proof.
  intros H.
  assert (L : 8 * schema_bytes short_schema = fold_right Z.add 0 (map d_bits (s_dims short_schema))).
  { apply (H a_schema (time_of 32 time_pos)); [exists 1; split; [lia|vm_compute; reflexivity]|vm_compute; reflexivity|exact short_free]. }
  vm_compute in L. discriminate L.
Qed.
Print Assumptions C51_size_refuted.

(** The hypotheses of [C51_replace] are met by "Time" at its own position. *)
Example C51_instance : exists s', set_dimension a_schema (time_of 64 time_pos) = Ok s' /\
  option_map d_signed (get_dimension a_schema "Time"%string) = Some false /\ option_map d_signed (get_dimension s' "Time"%string) = Some true /\
  In "Time"%string (map d_name (s_dims a_schema)).
Proof. eexists. split; [vm_compute; reflexivity|]. split; [reflexivity|]. split; [reflexivity|]. vm_compute. tauto. Qed.

(** C12, C13, C14: record layouts.  Vocabulary: Schema_Spec.v (fields, layouts,
    operations), Schema_Api.v (running operations, [schema_shows]). *)
From Coq Require Import ZArith List Bool String.
Import ListNotations.
From Verif Require Import Outcome Bytes Float64 Schema_Model Header_Model Point_Model Schema_Spec Schema_Api Schema_Proofs.
Local Open Scope Z_scope.

(** C12: after setting format 0-3, whatever happened to the schema before, every
    standard field has the byte offset of the LAS tables and the standard part of
    the record has the standard length; without custom dimensions this is the
    whole record. *)
Theorem C12_standard_layout : forall f0 fmt os,
  0 <= f0 <= 3 -> 0 <= fmt <= 3 -> Z.of_nat (List.length os) < 2 ^ 28 -> sops_ok (std_fields f0) os ->
  exists s0 s, schema_new f0 = Ok s0 /\ sops_run s0 (os ++ [SOFormat fmt]) = Ok s /\
    s_format s = fmt /\
    schema_base_bytes s = std_length fmt /\
    schema_bytes s = (8 * std_length fmt + total_bits (custom_fields (fold_left sop_spec os (std_fields f0)))) mod 2 ^ 64 / 8 /\
    forall name off, In (name, off) (std_offsets fmt) ->
      exists d, get_dimension s name = Some d /\ d_byteoff d = off /\ d_required d = true.
Proof. exact std_layout. Qed.
Print Assumptions C12_standard_layout.

(** A fresh schema. *)
Theorem C12_fresh : forall fmt, 0 <= fmt <= 3 ->
  exists s, schema_new fmt = Ok s /\ schema_fields s = std_fields fmt /\
    schema_bytes s = std_length fmt /\ schema_base_bytes s = std_length fmt.
Proof.
  intros fmt Hf. destruct (sinv_new fmt Hf) as (s & E & I & _). exists s. split; [exact E|].
  destruct (sinv_shows _ _ _ I) as (S1 & _ & S3 & S4). split; [exact S1|].
  unfold schema_bytes, schema_base_bytes. rewrite S3, S4, required_std, total_std by exact Hf.
  assert (Hc : fmt = 0 \/ fmt = 1 \/ fmt = 2 \/ fmt = 3) by (unfold Z.le in Hf; destruct fmt as [|p|p]; [auto| |destruct Hf as [Hf _]; now contradict Hf];
    destruct p as [p|p|]; try destruct p; auto; destruct Hf as [_ Hf]; now contradict Hf).
  destruct Hc as [Ec|[Ec|[Ec|Ec]]]; subst fmt; split; reflexivity.
Qed.
Print Assumptions C12_fresh.

(** C13: any history of adding whole-byte custom dimensions, removing them and
    changing between formats 0-3: the fields are, in order, the standard fields
    of the current format followed by the custom ones in order of addition, at
    consecutive bits; sizes are the sums. *)
Theorem C13_history : forall fmt os,
  0 <= fmt <= 3 -> Z.of_nat (List.length os) < 2 ^ 29 -> sops_ok (std_fields fmt) os ->
  exists s0 s, schema_new fmt = Ok s0 /\ sops_run s0 os = Ok s /\
    schema_shows s (fold_left sop_spec os (std_fields fmt)) /\
    NoDup (map f_name (fold_left sop_spec os (std_fields fmt))).
Proof. exact schema_history. Qed.
Print Assumptions C13_history.

(** ... and no two dimensions of which one is custom share a byte. *)
Theorem C13_disjoint : forall fmt os s0 s,
  0 <= fmt <= 3 -> Z.of_nat (List.length os) < 2 ^ 29 -> sops_ok (std_fields fmt) os ->
  schema_new fmt = Ok s0 -> sops_run s0 os = Ok s ->
  forall i j a b, nth_error (by_pos (s_dims s)) i = Some a -> nth_error (by_pos (s_dims s)) j = Some b -> (i < j)%nat ->
   (d_required a = false \/ d_required b = false) ->
   d_byteoff a + dim_bytesize a <= d_byteoff b.
Proof. exact schema_disjoint. Qed.
Print Assumptions C13_disjoint.

Definition c13_ops : list sop :=
  [SOAdd "amp" 16 true false true; SOAdd "id" 32 true true true; SOFormat 3; SORemove "amp"; SOAdd "amp" 64 true false false; SOFormat 2].
Example C13_instance : sops_ok (std_fields 0) c13_ops /\
  match schema_new 0 with
  | Ok s0 => match sops_run s0 c13_ops with
             | Ok s => schema_bytes s = 38 /\ option_map d_byteoff (get_dimension s "id") = Some 26
                       /\ option_map d_byteoff (get_dimension s "amp") = Some 30
             | _ => False end
  | _ => False end.
Proof.
  split.
  - cbn [sops_ok c13_ops sop_ok sop_spec].
    assert (D : forall (n : string) l, existsb (String.eqb n) l = false -> ~ In n l).
    { intros n l H Hin. assert (existsb (String.eqb n) l = true); [|congruence].
      apply existsb_exists. exists n. split; [exact Hin|apply String.eqb_refl]. }
    repeat split; try (apply D; vm_compute; reflexivity); try discriminate.
    exists (mkField "amp" 16 false). repeat split. vm_compute. tauto.
  - vm_compute. auto.
Qed.

(** C13 without its side conditions is false. *)
(** A custom dimension of 12 bits is given 2 bytes of which the next dimension
    shares the first: both have byte offset 20. *)
Theorem C13_any_size_refuted : exists s a b,
  schema_new 0 = Ok s /\
  let s2 := add_dimension (add_dimension s (user_dim "a" 12 true false true)) (user_dim "b" 8 true false true) in
  get_dimension s2 "a" = Some a /\ get_dimension s2 "b" = Some b /\ dim_bytesize a = 2 /\ d_byteoff a = 20 /\ d_byteoff b = 20.
Proof.
  eexists. eexists. eexists. split; [vm_compute; reflexivity|]. cbv zeta.
  split; [vm_compute; reflexivity|]. split; [vm_compute; reflexivity|]. repeat split.
Qed.
Print Assumptions C13_any_size_refuted.

(** RemoveDimension of a dimension object that did not come from the schema
    (its position is still 0) removes X. *)
Theorem C13_remove_by_name_refuted : exists s,
  schema_new 0 = Ok s /\
  let s2 := add_dimension s (user_dim "a" 16 true false true) in
  let s3 := remove_dimension s2 (user_dim "a" 16 true false true) in
  get_dimension s3 "X" = None /\ get_dimension s3 "a" <> None.
Proof. eexists. split; [vm_compute; reflexivity|]. cbv zeta. split; [vm_compute; reflexivity|vm_compute; discriminate]. Qed.
Print Assumptions C13_remove_by_name_refuted.

(** The bit offsets reported for the four flag fields are those of their ends
    (3, 6, 7, 8), not of their starts (0, 3, 6, 7). *)
Theorem C12_bit_offsets_refuted : exists s,
  schema_new 0 = Ok s /\
  map (fun n => option_map d_bitoff (get_dimension s n))
      ["Return Number"; "Number of Returns"; "Scan Direction"; "Flightline Edge"]%string
  = [Some 3; Some 6; Some 7; Some 8].
Proof. eexists. split; vm_compute; reflexivity. Qed.
Print Assumptions C12_bit_offsets_refuted.

(** C14.  Formats 0-3 are accepted (C12).  Any other is rejected with an
    exception — but by then the layout has been replaced: whatever the header
    had, its record is now 20 bytes with only the standard dimensions of format
    0, while the reported format is the old one. *)
Theorem C14_rejected_format_characterised : forall h fmt, ~ (0 <= fmt <= 3) ->
  exists h', set_header_format h fmt = (h', Throw ERuntime) /\
    get_format h' = get_format h /\ get_record_length h' = 20 /\
    schema_fields (h_schema h') = std_fields 0 /\
    h' = h_upd_schema h (h_schema h').
Proof.
  intros h fmt Hf. unfold set_header_format, set_format. rewrite update_required_bad by exact Hf.
  eexists. split; [reflexivity|]. split; [reflexivity|]. split; [reflexivity|]. split; [|reflexivity].
  vm_compute. reflexivity.
Qed.
Print Assumptions C14_rejected_format_characterised.

(** Hence C14 is false: a rejected format change destroys custom dimensions, and
    on a format 1 or 3 header leaves a state in which setting a time writes
    outside the record. *)
Theorem C14_unchanged_on_rejection_refuted : exists h h' ,
  header_new 1 2012 = Ok h /\ get_record_length h = 34 /\
  set_header_format h 4 = (h', Throw ERuntime) /\ get_record_length h' = 20 /\ get_format h' = 3 /\
  set_time (point_new h') f64_one = UB UBOutOfBounds.
Proof.
  assert (S : exists s, schema_new 3 = Ok s /\ s_bits s = 272 /\ s_format s = 3) by (eexists; split; [vm_compute; reflexivity|split; reflexivity]).
  destruct S as (s & S & B & F). eexists. eexists. split; [unfold header_new; rewrite S; reflexivity|].
  split. { unfold get_record_length, schema_bytes. cbn [h_schema]. rewrite B. reflexivity. }
  unfold set_header_format, set_format. cbn [h_schema]. rewrite update_required_bad by (intros [_ H]; now apply H).
  split; [reflexivity|]. split; [reflexivity|]. cbn [h_upd_schema h_schema get_format s_format]. split; [exact F|].
  unfold set_time, p_format, get_format, point_new. cbn [p_hdr h_schema h_upd_schema s_format]. rewrite F. reflexivity.
Qed.
Print Assumptions C14_unchanged_on_rejection_refuted.

(** C10, C11, C17, C45: variable records, VLR list, header text.
    Vocabulary: Hdr_Spec.v ([c_string_of], [vstep]), CStr.v ([pad_to]). *)
From Coq Require Import ZArith List Bool.
Import ListNotations.
From Verif Require Import Outcome Bytes CStr Float64 Vlr_Model Schema_Model Header_Model Hdr_Spec Hdr_Proofs.
Local Open Scope Z_scope.

Theorem C10_user_id : forall v s, vlr_wf v -> bytes_ok s ->
  if (length s <=? 16)%nat
  then exists v', vlr_set_user v s = Ok v' /\ vlr_wf v' /\ c_string_of s (vlr_get_user false v') /\
         vlr_get_user true v' = pad_to 16 (vlr_get_user false v') /\ length (vlr_get_user true v') = 16%nat /\
         v_desc v' = v_desc v /\ v_data v' = v_data v /\ v_reserved v' = v_reserved v /\ v_id v' = v_id v /\ v_size v' = v_size v
  else vlr_set_user v s = Throw EInvalidArgument.
Proof. exact vlr_set_user_spec. Qed.
Print Assumptions C10_user_id.

Theorem C10_description : forall v s, vlr_wf v -> bytes_ok s ->
  if (length s <=? 32)%nat
  then exists v', vlr_set_desc v s = Ok v' /\ vlr_wf v' /\ c_string_of s (vlr_get_desc false v') /\
         vlr_get_desc true v' = pad_to 32 (vlr_get_desc false v') /\ length (vlr_get_desc true v') = 32%nat /\
         v_user v' = v_user v /\ v_data v' = v_data v /\ v_reserved v' = v_reserved v /\ v_id v' = v_id v /\ v_size v' = v_size v
  else vlr_set_desc v s = Throw EInvalidArgument.
Proof. exact vlr_set_desc_spec. Qed.
Print Assumptions C10_description.

Theorem C10_total_size : forall v, vlr_total_size v = 54 + Z.of_nat (length (v_data v)).
Proof. exact vlr_total_size_spec. Qed.
Print Assumptions C10_total_size.

(** Equality of records compares everything but the payload ... *)
Theorem C10_equality : forall a b, vlr_equal a b = true <->
  (v_id a = v_id b /\ v_user a = v_user b /\ v_desc a = v_desc b /\ v_reserved a = v_reserved b /\ v_size a = v_size b).
Proof. exact vlr_equal_spec. Qed.
Print Assumptions C10_equality.

(** ... so records with different payloads compare equal. *)
Theorem C10_equality_sees_payload_refuted :
  exists a b, vlr_wf a /\ vlr_wf b /\ vlr_equal a b = true /\ v_data a <> v_data b.
Proof. exact vlr_equal_payload_witness. Qed.
Print Assumptions C10_equality_sees_payload_refuted.

Example C10_instance : vlr_wf vlr_new /\
  match vlr_set_user vlr_new [76; 65; 0; 9] with Ok v => vlr_get_user false v = [76; 65] | _ => False end.
Proof. split; [exact vlr_new_wf|vm_compute; reflexivity]. Qed.

(** C11: every sequence of VLR operations acts on the list as specified, keeps
    the reported count equal to the number of VLRs (a uint32_t), and changes no
    other member of the header. *)
Theorem C11_history : forall os h,
  h_nvlr h = Z.of_nat (length (h_vlrs h)) mod 2 ^ 32 -> Forall vop_typed os ->
  exists h', vops_run h os = Ok h' /\ vsteps (h_srs h) (h_vlrs h) os (h_vlrs h') /\
    h_nvlr h' = Z.of_nat (length (h_vlrs h')) mod 2 ^ 32 /\
    h' = h_upd_vlrs h (h_nvlr h') (h_vlrs h').
Proof. exact vops_refine. Qed.
Print Assumptions C11_history.

Theorem C11_step : forall h o,
  h_nvlr h = Z.of_nat (length (h_vlrs h)) mod 2 ^ 32 -> vop_typed o ->
  match vop_run h o with
  | Ok h' => vstep (h_srs h) (h_vlrs h) o (h_vlrs h') false /\
             h_nvlr h' = Z.of_nat (length (h_vlrs h')) mod 2 ^ 32 /\ h' = h_upd_vlrs h (h_nvlr h') (h_vlrs h')
  | Throw e => vstep (h_srs h) (h_vlrs h) o (h_vlrs h) true /\ e = EOutOfRange
  | UB _ => False
  end.
Proof. exact vop_refines. Qed.
Print Assumptions C11_step.

Theorem C11_block_size : forall h, h_nvlr h = Z.of_nat (length (h_vlrs h)) ->
  vlr_block_size h = Ok (fold_right (fun v s => 54 + Z.of_nat (length (v_data v)) + s) 0 (h_vlrs h) mod 2 ^ 32).
Proof. exact vlr_block_size_spec. Qed.
Print Assumptions C11_block_size.

(** The public SetRecordsCount breaks the correspondence: the block size of a new
    header whose count was set to 1 reads outside the vector. *)
Theorem C11_set_records_count_refuted : exists h, is_ok (header_new 1 2012) = true /\ header_new 1 2012 = Ok h /\
  vlr_block_size (set_records_count h 1) = UB UBOutOfBounds.
Proof. exact vlr_block_size_ub. Qed.
Print Assumptions C11_set_records_count_refuted.

Definition c11_ops : list vop :=
  [VAdd (vlr_set_id vlr_new 1); VAdd (vlr_set_id vlr_new 2); VAdd (vlr_set_id vlr_new 1); VDelete 7; VDelete 1; VDeleteBy [] 2; VGeoref].
Example C11_instance :
  Forall vop_typed c11_ops /\
  match header_new 1 2012 with
  | Ok h => h_nvlr h = Z.of_nat (length (h_vlrs h)) mod 2 ^ 32 /\
     match vops_run h c11_ops with Ok h' => map v_id (h_vlrs h') = [1; 1] /\ h_nvlr h' = 2 | _ => False end
  | _ => False end.
Proof.
  split; [unfold c11_ops; repeat apply Forall_cons; try apply Forall_nil; cbn; try exact I; discriminate|].
  vm_compute. auto.
Qed.

(** C17: a copy of a header (a distinct object with identical members) never
    compares equal to the original; the property is false of the code. *)
Theorem C17_copy_equality_refuted : forall h, header_eq false h h = Ok false.
Proof. exact header_copy_never_equal. Qed.
Print Assumptions C17_copy_equality_refuted.

Theorem C45_system_id : forall h s,
  if (length s <=? 32)%nat
  then exists h', set_system_id h s = Ok h' /\ c_string_of s (get_system_id false h') /\
         length (get_system_id true h') = 32%nat /\ get_system_id true h' = pad_to 32 (get_system_id false h') /\
         h' = h_upd_sysid h (h_sysid h') /\ length (h_sysid h') = 32%nat
  else set_system_id h s = Throw EInvalidArgument.
Proof. exact set_system_id_spec. Qed.
Print Assumptions C45_system_id.

Theorem C45_software_id : forall h s,
  if (length s <=? 32)%nat
  then exists h', set_software_id h s = Ok h' /\ c_string_of s (get_software_id false h') /\
         length (get_software_id true h') = 32%nat /\ get_software_id true h' = pad_to 32 (get_software_id false h') /\
         h' = h_upd_swid h (h_swid h') /\ length (h_swid h') = 32%nat
  else set_software_id h s = Throw EInvalidArgument.
Proof. exact set_software_id_spec. Qed.
Print Assumptions C45_software_id.

(** The signature setter accepts exactly the strings starting with "LASF". *)
Theorem C45_file_signature : forall h s,
  ((exists r, s = [76; 65; 83; 70] ++ r) ->
     exists h', set_file_signature h s = Ok h' /\ get_file_signature h' = [76; 65; 83; 70] /\ h' = h_upd_sig h (h_sig h')) /\
  ((~ exists r, s = [76; 65; 83; 70] ++ r) -> set_file_signature h s = Throw EInvalidArgument).
Proof. exact set_file_signature_spec. Qed.
Print Assumptions C45_file_signature.

Example C45_instance : match header_new 1 2012 with
  | Ok h => match set_system_id h [65; 66; 0; 67] with
            | Ok h' => get_system_id false h' = [65; 66] /\ get_system_id true h' = [65; 66] ++ repeat 0 30
            | _ => False end
  | _ => False end.
Proof. vm_compute. auto. Qed.

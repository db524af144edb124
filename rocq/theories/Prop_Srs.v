(** C50: the georeferencing records of an opened file.

    [geo_record v]: the record is one that carries georeferencing: its user id
    reads LASF_Projection and its number is one of the three GeoTIFF ones, or it
    reads liblas and the number is that of the WKT record. *)
From Coq Require Import ZArith List Bool Lia String.
Import ListNotations.
From Verif Require Import Outcome Bytes Float64 CStr Vlr_Model Schema_Model Header_Model Point_Model Stream_Model Stream_Proofs
  IO_Spec Reader_Model Reader_Open Reader_Api Reader_Hist IO_Extra IO_Samples Prop_Reader.
Local Open Scope Z_scope.
Local Notation length := List.length (only parsing).

Definition geo_record (v : vlr) : Prop :=
  (until_nul (v_user v) = str "LASF_Projection" /\ (v_id v = 34735 \/ v_id v = 34736 \/ v_id v = 34737)) \/
  (until_nul (v_user v) = str "liblas" /\ v_id v = 2112).

Lemma user_text v : until_nul (vlr_get_user true v) = until_nul (v_user v).
Proof.
  unfold vlr_get_user. cbn [andb]. destruct (_ <? _)%nat; [rewrite until_nul_pad|]; apply until_nul_id, until_nul_no_nul.
Qed.
Lemma is_geo_spec v : is_geo_vlr v = true <-> geo_record v.
Proof.
  unfold is_geo_vlr, geo_record. rewrite user_text. rewrite orb_true_iff, !andb_true_iff, !orb_true_iff, !Z.eqb_eq, !zlist_eqb_spec. tauto.
Qed.

(** a list cut down to the elements with a property, in order *)
Inductive kept_in_order {A} (P : A -> Prop) : list A -> list A -> Prop :=
| kio_nil : kept_in_order P [] []
| kio_keep a l r : P a -> kept_in_order P l r -> kept_in_order P (a :: l) (a :: r)
| kio_drop a l r : ~ P a -> kept_in_order P l r -> kept_in_order P (a :: l) r.

Lemma filter_kept {A} (P : A -> Prop) f (l : list A) : (forall a, f a = true <-> P a) -> kept_in_order P l (filter f l).
Proof.
  intros H. induction l as [|a l IH]; [constructor|]. cbn [filter]. destruct (f a) eqn:E.
  - apply kio_keep; [now apply H|exact IH].
  - apply kio_drop; [|exact IH]. intros HP. apply H in HP. congruence.
Qed.

(** The spatial reference of the header of an opened file holds the georeferencing
    records among the VLRs of the file, in their order, and no others. *)
Theorem C50_georeference : forall xml doy year F, las_file F -> no_schema_vlr F ->
  exists r, reader_open xml doy year F = Ok r /\ h_vlrs (r_hdr r) = file_vlrs F /\
    kept_in_order geo_record (file_vlrs F) (h_srs (r_hdr r)).
Proof.
  intros xml doy year F HF HN. destruct (open_ok xml doy year F HF HN) as (r & E & (HS & _) & _ & _ & HV & _). exists r. split; [exact E|]. split; [exact HV|].
  destruct HS as (_ & _ & _ & _ & -> & _). rewrite HV. apply filter_kept, is_geo_spec.
Qed.
Print Assumptions C50_georeference.

(** A file with a key directory, an OGC record of number 2112 under another user
    id, a WKT record of libLAS and another libLAS record. *)
Definition raw_vlr (user : string) (id : Z) (data : list Z) : list Z :=
  [187; 170] ++ pad_to 16 (str user) ++ le_enc 2 id ++ le_enc 2 (Z.of_nat (length data)) ++ repeat 0 32 ++ data.
Definition geo_vlrs : list Z :=
  raw_vlr "LASF_Projection" 34735 [1; 0] ++ raw_vlr "LASF_Projection" 2112 [2] ++ raw_vlr "liblas" 2112 [3] ++ raw_vlr "liblas" 2111 [4].
Definition geo_file : list Z := raw_file 2 (227 + Z.of_nat (length geo_vlrs)) 4 0 20 1 (geo_vlrs ++ rec_of 7).
Example C50_instance : las_file geo_file /\ no_schema_vlr geo_file /\
  exists r, reader_open (fun _ => Throw ERuntime) 1 2012 geo_file = Ok r /\ map v_id (h_srs (r_hdr r)) = [34735; 2112] /\ map v_data (h_srs (r_hdr r)) = [[1; 0]; [3]].
Proof.
  assert (L : las_file geo_file) by (apply las_fileb_ok; vm_compute; reflexivity). assert (N : no_schema_vlr geo_file) by (apply no_schema_vlrb; vm_compute; reflexivity).
  split; [exact L|]. split; [exact N|].
  destruct (open_ok (fun _ => Throw ERuntime) 1 2012 geo_file L N) as (r & E & (HS & _) & _ & _ & HV & _). exists r. split; [exact E|].
  destruct HS as (_ & _ & _ & _ & -> & _). rewrite HV. vm_compute. split; reflexivity.
Qed.

(** Concrete headers, points and files used by the examples and counterexamples
    of Prop_IO.v and Prop_Reader.v. *)
From Coq Require Import ZArith List Bool Lia String ZifyBool.
Import ListNotations.
From Verif Require Import Outcome Bytes Float64 CStr Vlr_Model Schema_Model Header_Model Point_Model Stream_Model Stream_Proofs
  Writer_Model IO_Spec Writer_Api Reader_Spec IO_Round.
Local Open Scope Z_scope.
Local Notation length := List.length (only parsing).

Definition sample_vlr (id : Z) (d : list Z) : vlr :=
  mkVlr d (pad_to 32 (str "a test record")) (pad_to 16 (str "someone")) 43707 id (Z.of_nat (length d)).
Definition sample_guid : list Z := [0;1;2;3;4;5;6;7;8;9;10;11;12;13;14;15].
(** A version 1.[vmin] header with two VLRs and a project id. *)
Definition sample_header (vmin : Z) : header :=
  match header_new 1 2012 with
  | Ok h => h_upd_reserved (h_upd_srcid (h_upd_vmin (h_upd_guid (h_upd_vlrs h 2 [sample_vlr 5 [1;2;3]; sample_vlr 6 []]) sample_guid) vmin) 77) 88
  | _ => mkHeader [] 0 0 [] 0 0 [] [] 0 0 0 0 0 0 [] (f64_zero, f64_zero, f64_zero) (f64_zero, f64_zero, f64_zero)
       (f64_zero, f64_zero, f64_zero) (f64_zero, f64_zero, f64_zero) [] [] (mkSchema 0 0 0 0 []) false 0
  end.
Definition no_sv (s : schema) : vlr := vlr_new.
Definition sample_point (h : header) (b : Z) : point := mkPoint (repeat b 34) h.


Definition bytes_okb (l : list Z) : bool := forallb (fun b => (0 <=? b) && (b <? 256)) l.
Lemma bytes_okb_ok l : bytes_okb l = true -> bytes_ok l.
Proof.
  unfold bytes_okb, bytes_ok. rewrite forallb_forall, Forall_forall. intros H x Hx. specialize (H x Hx).
  rewrite andb_true_iff in H. unfold is_byte. lia.
Qed.
Definition in_u (n z : Z) : bool := (0 <=? z) && (z <? 2 ^ n).
Lemma in_u_ok n z : in_u n z = true -> in_unsigned n z.
Proof. unfold in_u, in_unsigned. rewrite andb_true_iff. lia. Qed.
Definition vlr_wfb (v : vlr) : bool :=
  (Nat.eqb (length (v_user v)) 16) && (Nat.eqb (length (v_desc v)) 32) && bytes_okb (v_user v) && bytes_okb (v_desc v) &&
  bytes_okb (v_data v) && in_u 16 (v_reserved v) && in_u 16 (v_id v) && in_u 16 (v_size v).
Lemma vlr_wfb_ok v : vlr_wfb v = true -> vlr_wf v.
Proof.
  unfold vlr_wfb, vlr_wf. rewrite !andb_true_iff, !Nat.eqb_eq. intros H. decompose [and] H.
  repeat match goal with |- _ /\ _ => split end; auto using bytes_okb_ok, in_u_ok.
Qed.
Lemma forallb_Forall {A} (f : A -> bool) (P : A -> Prop) l : (forall x, f x = true -> P x) -> forallb f l = true -> Forall P l.
Proof. intros HfP. rewrite forallb_forall, Forall_forall. auto. Qed.
Definition header_wfb (h : header) : bool :=
  Nat.eqb (length (h_sig h)) 4 && bytes_okb (h_sig h) && in_u 16 (h_srcid h) && in_u 16 (h_reserved h) &&
  Nat.eqb (length (h_guid h)) 16 && bytes_okb (h_guid h) && in_u 8 (h_vmaj h) && in_u 8 (h_vmin h) &&
  Nat.eqb (length (h_sysid h)) 32 && bytes_okb (h_sysid h) && Nat.eqb (length (h_swid h)) 32 && bytes_okb (h_swid h) &&
  in_u 16 (h_doy h) && in_u 16 (h_year h) && in_u 16 (h_hsize h) && in_u 32 (h_doff h) && in_u 32 (h_nvlr h) && in_u 32 (h_npts h) &&
  Nat.eqb (length (h_byret h)) 7 && forallb (in_u 32) (h_byret h) && forallb vlr_wfb (h_vlrs h) && forallb vlr_wfb (h_srs h) && in_u 32 (h_pad h).
Lemma header_wfb_ok h : header_wfb h = true -> header_wf h.
Proof.
  unfold header_wfb, header_wf. rewrite !andb_true_iff, !Nat.eqb_eq. intros H. decompose [and] H.
  repeat match goal with |- _ /\ _ => split end; auto using bytes_okb_ok, in_u_ok;
    eapply forallb_Forall; eauto using in_u_ok, vlr_wfb_ok.
Qed.

Definition fresh_okb (h : header) : bool :=
  let L := written_vlrs no_sv h in
  header_wfb h && negb (h_comp h) && forallb is_crs (h_srs h) && negb (is_custom (h_schema h)) &&
  forallb (fun v => vlr_wfb v && (v_size v =? Z.of_nat (length (v_data v)))) L &&
  (227 <=? h_hsize h) && (h_hsize h + vlrs_size L + 2 <? 2 ^ 31) && (h_hsize h <=? h_doff h) && (h_doff h <=? h_hsize h + vlrs_size L) && (h_pad h =? 0).
Lemma fresh_okb_ok h : fresh_okb h = true -> fresh_ok no_sv h.
Proof.
  unfold fresh_okb, fresh_ok. rewrite !andb_true_iff, !negb_true_iff, !Z.leb_le, !Z.ltb_lt, Z.eqb_eq. intros H. decompose [and] H.
  split; [now apply header_wfb_ok|]. split; [assumption|]. split; [eapply forallb_Forall; [|eassumption]; auto|].
  split; [congruence|]. split.
  { eapply forallb_Forall; [|eassumption]. intros v. cbv beta. rewrite andb_true_iff, Z.eqb_eq. intros [X Y]. split; [now apply vlr_wfb_ok|exact Y]. }
  auto.
Qed.
Definition session_okb (h : header) (ps : list point) : bool :=
  fresh_okb h && zlist_eqb (h_sig h) (str "LASF") && (h_vmaj h =? 1) && (h_vmin h <=? 3) &&
  (0 <=? get_format h) && (get_format h <=? 3) && (0 <? get_record_length h) &&
  forallb (fun v => negb (has_id "liblas" 7 v)) (written_vlrs no_sv h) && (Z.of_nat (length ps) <? 2 ^ 32) &&
  forallb (fun p => (get_record_length h <=? Z.of_nat (length (p_data p))) && negb (Nat.eqb (length (p_data p)) 0) && bytes_okb (p_data p)) ps.
Lemma session_okb_ok h ps : session_okb h ps = true -> session_ok no_sv h ps.
Proof.
  unfold session_okb, session_ok. rewrite !andb_true_iff, !Z.leb_le, !Z.ltb_lt, Z.eqb_eq. intros H. decompose [and] H.
  split; [now apply fresh_okb_ok|]. split.
  { repeat split; try assumption. now apply zlist_eqb_spec. }
  split; [eapply forallb_Forall; [|eassumption]; intros v; cbv beta; now rewrite negb_true_iff|].
  split; [assumption|]. eapply forallb_Forall; [|eassumption]. intros p. cbv beta.
  rewrite !andb_true_iff, negb_true_iff, Z.leb_le, Nat.eqb_neq. intros [[X Y] W]. split; [split; [exact X|]|now apply bytes_okb_ok].
  intros E. apply Y. now rewrite E.
Qed.

Definition sample_points (h : header) : list point := [sample_point h 17; sample_point h 18].
Lemma sample_session vmin : vmin = 0 \/ vmin = 2 -> session_ok no_sv (sample_header vmin) (sample_points (sample_header vmin)).
Proof. intros [->| ->]; apply session_okb_ok; vm_compute; reflexivity. Qed.

(** A file given by its bytes: version 1.2, format 0, one-metre scaling, no VLRs,
    [n] declared records, and the bytes [recs] from offset 227 on. *)
Definition f64_one_bytes : list Z := [0;0;0;0;0;0;240;63].
Definition raw_file (vmin doff nvlr : Z) (fmt reclen n : Z) (recs : list Z) : list Z :=
  str "LASF" ++ [0;0;0;0] ++ sample_guid ++ [1; vmin] ++ repeat 0 64 ++ [1;0;220;7] ++ le_enc 2 227 ++ le_enc 4 doff ++ le_enc 4 nvlr ++
  [fmt] ++ le_enc 2 reclen ++ le_enc 4 n ++ repeat 0 20 ++
  f64_one_bytes ++ f64_one_bytes ++ f64_one_bytes ++ repeat 0 72 ++ recs.
Definition rec_of (b : Z) : list Z := repeat b 20.

Definition las_fileb (F : list Z) : bool :=
  bytes_okb F && (Nat.leb 227 (length F)) && zlist_eqb (slice F 0 4) (str "LASF") && (u_at F 24 1 =? 1) && (u_at F 25 1 <=? 3) &&
  (u_at F 94 2 <=? u_at F 96 4) && (u_at F 104 1 <=? 3) && (negb (0 <? u_at F 100 4) || Nat.leb (file_vlrs_end F) (length F)).
Lemma las_fileb_ok F : las_fileb F = true -> las_file F.
Proof.
  unfold las_fileb, las_file. rewrite !andb_true_iff, !Nat.leb_le, !Z.eqb_eq, !Z.leb_le, orb_true_iff, negb_true_iff, Z.ltb_nlt, Nat.leb_le.
  intros H. decompose [and] H. split; [now apply bytes_okb_ok|]. split; [assumption|]. split; [now apply zlist_eqb_spec|].
  repeat (split; [assumption|]). intros L. match goal with X : _ \/ _ |- _ => destruct X; [contradiction|assumption] end.
Qed.
Lemma no_schema_vlrb F : forallb (fun v => negb (has_id "liblas" 7 v)) (file_vlrs F) = true -> no_schema_vlr F.
Proof. intros H. eapply forallb_Forall; [|exact H]. intros v. cbv beta. now rewrite negb_true_iff. Qed.

(** The value of a successful computation. *)
Definition get_ok {A} (d : A) (o : outcome A) : A := match o with Ok a => a | _ => d end.
Lemma get_ok_ok {A} (d : A) o : is_ok o = true -> o = Ok (get_ok d o).
Proof. destruct o; [reflexivity|discriminate|discriminate]. Qed.
Definition no_writer : Writer_Model.writer := Writer_Model.mkWriter (os_open []) (sample_header 2) 0.

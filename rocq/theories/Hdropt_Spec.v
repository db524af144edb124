(** Vocabulary for the header-modification options of las2las: what a user asks
    for ([change]), how it is typed ([typed_as]), what the new file should be. *)
From Coq Require Import ZArith List Bool String.
Import ListNotations.
From Verif Require Import Outcome Bytes Float64 Float64_Proofs CStr Vlr_Model Schema_Model Schema_Spec Header_Model Point_Model Stream_Model Stream_Proofs
  IO_Spec Reader_Spec Reader_Vlrs Rewrite_Proofs Prop_Rewrite Summary_Spec Las2las_Spec Las2las_Model Prop_Las2las Cli_Model Cli_Spec Hdropt_Model.
Local Open Scope Z_scope.
Local Notation length := List.length (only parsing).

(** A VLR to add. *)
Record new_vlr := mkNew { n_user : text; n_id : Z; n_desc : text; n_data : list Z }.
(** The changes asked for; [None] = leave as it is. *)
Record change := mkChange {
  c_offset : option (f64 * f64 * f64); c_scale : option (f64 * f64 * f64); c_minor : option Z; c_format : option Z;
  c_date : option (Z * Z); c_vlr : option new_vlr; c_software : option text; c_system : option text }.
Definition no_change : change := mkChange None None None None None None None None.

(** ** How it is typed *)
Definition word (w : text) : Prop := w <> [] /\ w <> str "min" /\ Forall (fun c => ~ In c separators) w.
(** three words, separated by single commas, bars or blanks *)
Definition offset_text (atof : text -> f64) (v : f64 * f64 * f64) (s : text) : Prop :=
  exists a b c s1 s2, word a /\ word b /\ word c /\ In s1 separators /\ In s2 separators /\
    s = a ++ [s1] ++ b ++ [s2] ++ c /\ v = (atof a, atof b, atof c).
(** "1.0", "1.1", "1.2" *)
Definition version_text (m : Z) (s : text) : Prop := exists b, numeral b m /\ m <= 2 /\ s = str "1." ++ b.
(** "now" or a day and a year *)
Definition date_text (doy year : Z) (d : Z * Z) (l : list text) : Prop :=
  (l = [str "now"] /\ d = (doy, year)) \/
  (exists a b, numeral a (fst d) /\ numeral b (snd d) /\ fst d <= 366 /\ snd d < 2 ^ 16 /\ l = [a; b]).
(** a text for a field of [n] characters *)
Definition label (n : nat) (s : text) : Prop := (length s <= n)%nat /\ bytes_ok s /\ no_nul s.
(** user id, record id, perhaps a description, and a file name or the data *)
Definition vlr_text (readraw : text -> option (list Z)) (v : new_vlr) (l : list text) : Prop :=
  label 16 (n_user v) /\ label 32 (n_desc v) /\ bytes_ok (n_data v) /\ Z.of_nat (length (n_data v)) <= 65535 /\
  exists id what, numeral id (n_id v) /\ n_id v <= 65535 /\
    (readraw what = Some (n_data v) /\ n_data v <> [] \/ readraw what = None /\ what = n_data v) /\
    (l = [n_user v; id; n_desc v; what] \/ n_desc v = [] /\ l = [n_user v; id; what]).
Definition typed_as (atof : text -> f64) (readraw : text -> option (list Z)) (t : tool) (c : change) (o : hopts) : Prop :=
  both (offset_text atof) (c_offset c) (a_offset o) /\
  both (fun v l => l = [x_of v; y_of v; z_of v]) (c_scale c) (a_scale o) /\
  both version_text (c_minor c) (a_file_format o) /\
  both (fun k n => n = k /\ 0 <= k <= 3) (c_format c) (a_point_format o) /\
  both (date_text (t_doy t mod 2 ^ 16) (t_year t mod 2 ^ 16)) (c_date c) (a_creation o) /\
  both (vlr_text readraw) (c_vlr c) (a_add_vlr o) /\
  both (fun v s => s = v /\ label 32 v) (c_software c) (a_software o) /\
  both (fun v s => s = v /\ label 32 v) (c_system c) (a_system o) /\
  a_pad o = None /\ a_add_schema o = false /\ a_delete_vlr o = None.

(** ** What the file should be *)
Definition or_else {A} (o : option A) (d : A) : A := match o with Some a => a | None => d end.
Definition changed (c : change) (p : pubhdr) : pubhdr :=
  mkPub (ph_sig p) (ph_source p) (ph_reserved p) (ph_vmaj p) (or_else (c_minor c) (ph_vmin p))
        (or_else (c_system c) (ph_sysid p)) (or_else (c_software c) (ph_swid p))
        (or_else (option_map fst (c_date c)) (ph_doy p)) (or_else (option_map snd (c_date c)) (ph_year p))
        (ph_hsize p) (ph_doff p) (ph_nvlr p)
        (or_else (c_format c) (ph_format p)) (or_else (option_map std_length (c_format c)) (ph_reclen p)) (ph_npts p) (ph_returns p)
        (or_else (option_map bits3 (c_scale c)) (ph_scale p)) (or_else (option_map bits3 (c_offset c)) (ph_offset p)) (ph_max p) (ph_min p).
Definition with_vlrs (p : pubhdr) (n : Z) : pubhdr :=
  mkPub (ph_sig p) (ph_source p) (ph_reserved p) (ph_vmaj p) (ph_vmin p) (ph_sysid p) (ph_swid p) (ph_doy p) (ph_year p)
        (ph_hsize p) (ph_doff p) n (ph_format p) (ph_reclen p) (ph_npts p) (ph_returns p)
        (ph_scale p) (ph_offset p) (ph_max p) (ph_min p).
Definition the_vlr (v : new_vlr) : vlr :=
  mkVlr (n_data v) (pad_to 32 (n_desc v)) (pad_to 16 (n_user v)) 0xAABB (n_id v) (Z.of_nat (length (n_data v))).
Definition added (c : change) : list vlr := match c_vlr c with Some v => [the_vlr v] | None => [] end.
Definition vlrs_after (F : list Z) (c : change) : list vlr := file_vlrs F ++ added c.
(** version and record length of the new file *)
Definition minor_after (F : list Z) (c : change) : Z := or_else (c_minor c) (u_at F 25 1).
Definition reclen_after (F : list Z) (c : change) : Z := or_else (option_map std_length (c_format c)) (f_reclen F).
(** where the records start *)
Definition start_after (F : list Z) (c : change) : Z :=
  let e := u_at F 94 2 + vlrs_size (vlrs_after F c) in if minor_after F c =? 0 then e + 2 else Z.max e (f_doff F).
(** header values of the new file with [n] points, before bounds and return counts *)
Definition header_after (F : list Z) (c : change) (n : Z) : pubhdr :=
  with_count (with_doff (with_vlrs (changed c (pub_of_file F)) (Z.of_nat (length (vlrs_after F c)))) (start_after F c)) n.
(** version 1.0 files lose source id and reserved word *)
Definition lossy (p : pubhdr) : pubhdr := if ph_vmin p =? 0 then with_source p 0 0 else p.
(** The new file [G]: the records cut to the record length, in their order; VLRs,
    project id, header values. *)
Definition edited (F : list Z) (c : change) (h : header) (ds : list (list Z)) (G : list Z) : Prop :=
  standard G /\ records_from G 0 = map (firstn (Z.to_nat (reclen_after F c))) ds /\
  file_vlrs G = map vlr_norm (geo_last (vlrs_after F c)) /\ slice G 8 16 = slice F 8 16 /\
  (ds = [] -> pub_of_file G = lossy (header_after F c 0)) /\
  (ds <> [] -> exists mx mn rns, bounds_of (points_of h ds) mx mn /\ values_of get_return_number (points_of h ds) rns /\
     pub_of_file G = lossy (with_returns (with_bounds (header_after F c (Z.of_nat (length ds))) mx mn) (five_returns rns))).

(** Changes considered: finite numbers, no VLR of a kind the writer handles itself,
    room for the VLR. *)
Definition doable (F : list Z) (c : change) : Prop :=
  translatable F /\
  when (c_offset c) (fun v => f64_fin (x_of v) = true /\ f64_fin (y_of v) = true /\ f64_fin (z_of v) = true) /\
  when (c_scale c) (fun v => f64_fin (x_of v) = true /\ f64_fin (y_of v) = true /\ f64_fin (z_of v) = true) /\
  Forall (fun v => is_crs v = false /\ has_id "laszip encoded" 22204 v = false /\ has_id "liblas" 7 v = false) (added c) /\
  start_after F c + 4 < 2 ^ 31 /\ (minor_after F c = 0 -> gap F <> 1 \/ c_vlr c <> None).
(** ... and records not longer than those of the file. *)
Definition changeable (F : list Z) (c : change) : Prop := doable F c /\ reclen_after F c <= f_reclen F.

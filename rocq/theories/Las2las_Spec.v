(** Vocabulary for las2las. *)
From Coq Require Import ZArith List Bool String.
Import ListNotations.
From Verif Require Import Outcome Bytes Float64 Header_Model Point_Model Coord_Api IO_Spec Reader_Spec Reader_Api Reader_Vlrs Rewrite_Proofs Prop_Rewrite Stream_Model Stream_Proofs Writer_Model Summary_Spec Text_Model.
Local Open Scope Z_scope.
Local Notation length := List.length (only parsing).

(** [v] is the smallest (largest) coordinate of the points. *)
Definition least_coord (ps : list point) (ax : axis) (v : f64) : Prop :=
  (exists p, In p ps /\ get_coord ax p = Ok v) /\ forall p w, In p ps -> get_coord ax p = Ok w -> f64_le v w = true.
Definition greatest_coord (ps : list point) (ax : axis) (v : f64) : Prop :=
  (exists p, In p ps /\ get_coord ax p = Ok v) /\ forall p w, In p ps -> get_coord ax p = Ok w -> f64_le w v = true.
(** Component of three values. *)
Definition on_axis {V} (ax : axis) (b : V * V * V) : V :=
  match ax, b with AxX, (x, _, _) => x | AxY, (_, y, _) => y | AxZ, (_, _, z) => z end.
(** Bounds (bit patterns) are those of the points, with 16 digits. *)
Definition bounds_of (ps : list point) (mx mn : Z * Z * Z) : Prop :=
  forall ax, exists lo lo' hi hi', least_coord ps ax lo /\ greatest_coord ps ax hi /\
    text16 lo = Ok lo' /\ text16 hi = Ok hi' /\ on_axis ax mn = f64_bits lo' /\ on_axis ax mx = f64_bits hi'.

(** The five return counts of a header for points with these return numbers;
    points without return number (0) count as first returns when no point has
    one. *)
Definition five_returns (rns : list Z) : list Z :=
  if forallb (Z.eqb 0) rns then [Z.of_nat (length rns); 0; 0; 0; 0]
  else map (fun k => number_of (Z.eqb k) rns) [1; 2; 3; 4; 5].

(** Header values with other bounds and return counts. *)
Definition with_bounds (p : pubhdr) (mx mn : Z * Z * Z) : pubhdr :=
  mkPub (ph_sig p) (ph_source p) (ph_reserved p) (ph_vmaj p) (ph_vmin p) (ph_sysid p) (ph_swid p) (ph_doy p) (ph_year p)
        (ph_hsize p) (ph_doff p) (ph_nvlr p) (ph_format p) (ph_reclen p) (ph_npts p) (ph_returns p)
        (ph_scale p) (ph_offset p) mx mn.
Definition with_returns (p : pubhdr) (l : list Z) : pubhdr :=
  mkPub (ph_sig p) (ph_source p) (ph_reserved p) (ph_vmaj p) (ph_vmin p) (ph_sysid p) (ph_swid p) (ph_doy p) (ph_year p)
        (ph_hsize p) (ph_doff p) (ph_nvlr p) (ph_format p) (ph_reclen p) (ph_npts p) l
        (ph_scale p) (ph_offset p) (ph_max p) (ph_min p).

(** Scale factors positive and, like the offsets, of a magnitude that leaves room
    for the arithmetic. *)
Definition sane_scaling (F : list Z) : Prop :=
  forall k, (k < 3)%nat -> let s := f64_of_bits (u_at F (131 + 8 * k) 8) in let o := f64_of_bits (u_at F (155 + 8 * k) 8) in
    scale_ok s /\ f64_lt f64_zero s = true /\ offset_ok o.

(** ** The files las2las writes from a file [F] *)
Definition points_of (h : header) (ds : list (list Z)) : list point := map (fun d => mkPoint d h) ds.
(** Header values of [F] for [n] points in a new file. *)
Definition copied (F : list Z) (n : Z) : pubhdr := with_count (with_doff (pub_of_file F) (new_doff F)) n.
(** Version 1.0 has no source id: the writer stores the reserved word in its
    place and 0 for that word, every time a header is written. *)
Definition once (F : list Z) (p : pubhdr) : pubhdr := if u_at F 25 1 =? 0 then with_source p (u_at F 6 2) 0 else p.
Definition twice (F : list Z) (p : pubhdr) : pubhdr := if u_at F 25 1 =? 0 then with_source p 0 0 else p.
(** Records and VLRs. *)
Definition carries (F : list Z) (ds : list (list Z)) (G : list Z) : Prop :=
  standard G /\ records_from G 0 = ds /\ file_vlrs G = map vlr_norm (geo_last (file_vlrs F)).
(** A file whose header has been repaired after the points were written. *)
Definition finished (F : list Z) (h : header) (ds : list (list Z)) (G : list Z) : Prop :=
  carries F ds G /\ slice G 8 16 = slice F 8 16 /\
  (ds = [] -> pub_of_file G = twice F (copied F 0)) /\
  (ds <> [] -> exists mx mn rns, bounds_of (points_of h ds) mx mn /\ values_of get_return_number (points_of h ds) rns /\
     pub_of_file G = twice F (with_returns (with_bounds (copied F (Z.of_nat (length ds))) mx mn) (five_returns rns))).
(** A file whose header has not: bounds and return counts are those of [F]. *)
Definition unfinished (F : list Z) (ds : list (list Z)) (G : list Z) : Prop :=
  carries F ds G /\ slice G 8 16 = guid_swap (slice F 8 16) /\ pub_of_file G = once F (copied F (Z.of_nat (length ds))).

(** ** Filter and split *)
Definition the_filter (keep : option (point -> bool)) : option (unit -> point -> bool * unit) :=
  match keep with None => no_filter | Some k => stateless k end.
(** The records the reader delivers: all, or those the filter accepts (but the last
    one is lost after two rejected ones, see C27). *)
Definition delivered (F : list Z) (h : header) (keep : option (point -> bool)) : list (list Z) :=
  match keep with
  | None => records_from F 0
  | Some k => let acc d := k (mkPoint d h) in
      if isolated_last F acc then removelast (filter acc (records_from F 0)) else filter acc (records_from F 0)
  end.
(** Conditions for reading with a filter. *)
Definition filterable (F : list Z) (keep : option (point -> bool)) : Prop := keep <> None -> exact_end F /\ f_npts F + 1 < 2 ^ 32.

(** points per file: the size limit is counted in 32 bits *)
Definition limit (mb : Z) : Z := let b := (mb * 2 ^ 20) mod 2 ^ 32 in if b <=? 2 ^ 31 then b else 0.
Definition quota (F : list Z) (mb sp : Z) : Z := if 0 <? sp then sp else limit mb / f_reclen F + 1.
Definition split_ok (mb sp : Z) : Prop := (mb = 0 /\ 0 < sp < 2 ^ 32) \/ (0 < mb /\ sp = 0).
(** [gs]: the finished files, [G]: the last one *)
Definition split_into (F : list Z) (h : header) (k : Z) (ds : list (list Z)) (gs : list (list Z)) (G : list Z) : Prop :=
  Z.of_nat (length gs) = Z.of_nat (length ds) / k /\
  (forall i g, nth_error gs i = Some g -> finished F h (firstn (Z.to_nat k) (skipn (i * Z.to_nat k) ds)) g) /\
  unfinished F (skipn (length gs * Z.to_nat k) ds) G.


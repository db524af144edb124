(** C01, C02, C04: point attributes.  Vocabulary: Point_Spec.v (layout table,
    abstract record), Point_Api.v (accessors by attribute). *)
From Coq Require Import ZArith List Bool Lia ZifyBool.
Import ListNotations.
From Verif Require Import Outcome Bytes Float64 Classif_Model Schema_Model Header_Model Point_Model
  Point_Spec Point_Api Point_Proofs Point_Hist.
Local Open Scope Z_scope.

(** C01, one write: the written attribute reads back, every non-overlapping
    attribute and every custom byte keeps its value. *)
Theorem C01_set_get_frame : forall p a v s w sg,
  point_wf p -> is_color a = false -> attr_range (p_format p) a = Some (s, w, sg) -> value_fits sg w v ->
  exists p', api_set a v p = Ok p' /\ point_wf p' /\ p_hdr p' = p_hdr p /\
    length (p_data p') = length (p_data p) /\
    api_get a p' = Ok v /\
    (forall b, overlapping a b = false -> attr_range (p_format p) b <> None -> api_get b p' = api_get b p) /\
    (forall i, (Z.to_nat (format_bytes (p_format p)) <= i)%nat ->
       nth_error (p_data p') i = nth_error (p_data p) i).
Proof. exact set_get_frame. Qed.
Print Assumptions C01_set_get_frame.

Theorem C01_set_color_frame : forall p r g b,
  point_wf p -> attr_range (p_format p) ARed <> None ->
  in_unsigned 16 r -> in_unsigned 16 g -> in_unsigned 16 b ->
  exists p', set_color p (mkColor r g b) = Ok p' /\ point_wf p' /\ p_hdr p' = p_hdr p /\
    length (p_data p') = length (p_data p) /\
    get_color p' = Ok (mkColor r g b) /\
    (forall a, is_color a = false -> attr_range (p_format p) a <> None -> api_get a p' = api_get a p) /\
    (forall i, (Z.to_nat (format_bytes (p_format p)) <= i)%nat ->
       nth_error (p_data p') i = nth_error (p_data p) i).
Proof. exact set_color_frame. Qed.
Print Assumptions C01_set_color_frame.

(** C01, every history of writes: the point behaves like a record of independent
    attributes. *)
Theorem C01_history : forall os p m,
  point_wf p ->
  (forall a, attr_range (p_format p) a <> None -> api_get a p = Ok (aview m a)) ->
  Forall (pop_ok (p_format p)) os ->
  exists p', pops_run os p = Ok p' /\ point_wf p' /\ p_hdr p' = p_hdr p /\
    length (p_data p') = length (p_data p) /\
    (forall a, attr_range (p_format p') a <> None -> api_get a p' = Ok (aview (fold_left aop os m) a)) /\
    (forall i, (Z.to_nat (format_bytes (p_format p)) <= i)%nat ->
       nth_error (p_data p') i = nth_error (p_data p) i).
Proof. exact pops_refine. Qed.
Print Assumptions C01_history.

(** A new point of a header satisfies the hypotheses, with every attribute 0. *)
Theorem C01_fresh_point : forall h,
  0 <= get_format h <= 3 -> format_bytes (get_format h) <= get_record_length h ->
  point_wf (point_new h) /\
  (forall a, attr_range (p_format (point_new h)) a <> None -> api_get a (point_new h) = Ok (aview (fun _ => 0) a)).
Proof. exact fresh_point_agrees. Qed.
Print Assumptions C01_fresh_point.

(** The attributes are where the LAS tables say: reading is extraction of the
    attribute's bit range. *)
Theorem C01_layout : forall p a s w sg,
  point_wf p -> attr_range (p_format p) a = Some (s, w, sg) ->
  api_get a p = Ok (decode_bits sg w (bits_at (rec_int p) s w)).
Proof. exact api_get_spec. Qed.
Print Assumptions C01_layout.

(** C02: composition of the flag byte, and the setters keep the low bits of
    whatever argument they get. *)
Theorem C02_flag_byte : forall p, point_wf p ->
  exists rn nr dir edge, 0 <= rn < 8 /\ 0 <= nr < 8 /\ 0 <= dir < 2 /\ 0 <= edge < 2 /\
    get_return_number p = Ok rn /\ get_number_of_returns p = Ok nr /\
    get_scan_direction p = Ok dir /\ get_flight_line_edge p = Ok edge /\
    get_flags p = Ok (flag_byte rn nr dir edge).
Proof. exact flags_compose. Qed.
Print Assumptions C02_flag_byte.

Theorem C02_any_argument : forall p a v,
  point_wf p -> In a [AReturnNumber; ANumberOfReturns; AScanDirection; AFlightLineEdge] ->
  exists p', api_set a v p = Ok p' /\
    api_get a p' = Ok (v mod (if attr_eq_dec a AReturnNumber then 8 else
                              if attr_eq_dec a ANumberOfReturns then 8 else 2)) /\
    (forall b, overlapping a b = false -> attr_range (p_format p) b <> None -> api_get b p' = api_get b p).
Proof. exact flag_set_any. Qed.
Print Assumptions C02_any_argument.

(** C04 *)
Theorem C04_time_absent : forall p, point_wf p -> attr_range (p_format p) ATime = None ->
  (forall t, set_time p t = Throw EInvalidFormat) /\ get_time p = Ok f64_zero.
Proof. exact time_absent. Qed.
Print Assumptions C04_time_absent.

Theorem C04_color_absent : forall p, point_wf p -> attr_range (p_format p) ARed = None ->
  (forall c, set_color p c = Throw EInvalidFormat) /\ get_color p = Ok color_black.
Proof. exact color_absent. Qed.
Print Assumptions C04_color_absent.

Theorem C04_time_present : forall p t, point_wf p -> attr_range (p_format p) ATime <> None ->
  exists p', set_time p t = Ok p' /\ get_time p' = Ok t /\ point_wf p' /\
    get_color p' = get_color p.
Proof. exact time_present. Qed.
Print Assumptions C04_time_present.

Theorem C04_fields_disjoint : forall fmt a b r1 r2, 0 <= fmt <= 3 -> overlapping a b = false ->
  attr_range fmt a = Some r1 -> attr_range fmt b = Some r2 -> ranges_disjoint r1 r2.
Proof. exact attr_ranges_disjoint. Qed.
Print Assumptions C04_fields_disjoint.

(** Non-vacuity: a format 3 point with 3 custom bytes, non-trivial contents. *)
Definition ex_history : list pop :=
  [PSet ARawX (-5); PSet AReturnNumber 3; PSet AScanFlags 129; PSet ANumberOfReturns 5;
   PSet ATime 4607182418800017408; PColor 1 2 65535; PSet AScanAngleRank (-90)].

Example C01_history_hypotheses : Forall (pop_ok 3) ex_history.
Proof.
  assert (K : forall sg w v, (if sg : bool then in_signedb w v else in_unsignedb w v) = true -> value_fits sg w v).
  { intros [] w v H; cbn; unfold in_signed, in_unsigned, in_signedb, in_unsignedb in *; lia. }
  repeat apply Forall_cons; try apply Forall_nil;
  try (split; [reflexivity|]; do 3 eexists; split; [reflexivity|apply K; vm_compute; reflexivity]).
  split; [discriminate|]. repeat split; apply Z.leb_le || apply Z.ltb_lt; vm_compute; reflexivity.
Qed.

Example C01_history_instance :
  (let! h := header_new 1 2012 in
   let p := mkPoint (repeat 0 34 ++ [7; 8; 9]) h in
   let! q := pops_run ex_history p in
   let! f := api_get AScanFlags q in let! x := api_get ARawX q in let! r := api_get AReturnNumber q in
   Ok (p_format p, length (p_data p), f, x, r, skipn 34 (p_data q)))
  = Ok (3, 37%nat, 169, -5, 1, [7; 8; 9]).
Proof. vm_compute. reflexivity. Qed.

(** Model of lasinfo's inspection of the points and of --point:
    /repo/apps/lasinfo.cpp:23-65 (check_points), 206-236 (--point), 239-246 and
    277-280 (the summary in main), /repo/src/utility.cpp:323-566 (Summary::GetPTree
    and operator<<), /repo/src/point.cpp:294-382 (Point::GetPTree, operator<<).

    Simplifications: the listings of the header, the VLRs and the schema in front
    of the inspection, the XML output and --locale are left out; the filters are any
    filter without state; std::log10 is the parameter [lg] as in Txt_Model; boost's
    property tree keeps doubles as text ([t_text], Text_Model), integers unchanged;
    texts are lists of characters; output streams do not fail. *)
From Coq Require Import ZArith List Bool String Ascii.
Import ListNotations.
From Verif Require Import Outcome Bytes Float64 Classif_Model Schema_Model Vlr_Model Header_Model Point_Model Stream_Model Reader_Model Reader_Api Summary_Model Las2las_Model Txt_Model.
Local Open Scope string_scope.
Local Open Scope list_scope.
Local Open Scope Z_scope.

(** point.cpp:294-348: the values of the tree that are read again; all are computed *)
Record ptree_of_point := mkPtp {
  t_x : f64; t_y : f64; t_z : f64; t_time : f64; t_intensity : Z; t_return : Z; t_returns : Z; t_dir : Z; t_angle : Z; t_edge : Z; t_user : Z; t_source : Z;
  t_class : Z; t_red : Z; t_green : Z; t_blue : Z }.
Definition point_ptree (p : point) : outcome ptree_of_point :=
  let! x := get_x p in let! y := get_y p in let! z := get_z p in
  let! _ := get_raw_x p in let! _ := get_raw_y p in let! _ := get_raw_z p in
  let! t := get_time p in let! i := get_intensity p in let! rn := get_return_number p in let! nr := get_number_of_returns p in
  let! sd := get_scan_direction p in let! sa := get_scan_angle p in let! fe := get_flight_line_edge p in
  let! ud := get_user_data p in let! ps := get_point_source_id p in
  let! c := get_classification p in let! k := get_color p in
  Ok (mkPtp x y z t i rn nr sd sa fe ud ps c (c_red k) (c_green k) (c_blue k)).

Definition dashes : text := of_string "---------------------------------------------------------" ++ [newline].
Definition dashes2 : text := of_string "  -------------------------------------------------------" ++ [newline].
Definition tabs (n : nat) : text := repeat tab n.
Definition s : string -> text := of_string.
(** a double of the tree, printed with a precision *)
Definition real (text16 : f64 -> outcome f64) (prec : nat) (x : f64) : outcome text := let! y := text16 x in Ok (fixed_text prec y).

(** utility.cpp:393-566.  [declared]: the header's point count.  What has been
    written when an exception leaves the operator is not kept. *)
Definition summary_text (lg : f64 -> f64) (text16 : f64 -> outcome f64) (u : summary) : outcome text :=
  let! r := summary_report u in
  let! a := point_ptree (k_min r) in let! b := point_ptree (k_max r) in
  let head := dashes ++ s "  Point Inspection Summary" ++ [newline] ++ dashes in
  if k_count r =? 0 then Ok (head ++ s "  File has no points ...") else
  if negb (u_have_header u) then Throw ERuntime  (* ptree_bad_path: no summary.header.count *) else
  let h := u_header u in
  let '(sx, sy, sz) := h_scale h in
  let! sx := text16 sx in let! sy := text16 sy in let! sz := text16 sz in
  let! px := stream_precision lg sx in let! py := stream_precision lg sy in let! pz := stream_precision lg sz in
  let px := Z.to_nat px in let py := Z.to_nat py in let pz := Z.to_nat pz in
  let! x0 := real text16 px (t_x a) in let! y0 := real text16 py (t_y a) in let! z0 := real text16 pz (t_z a) in
  let! x1 := real text16 px (t_x b) in let! y1 := real text16 py (t_y b) in let! z1 := real text16 pz (t_z b) in
  let! t0 := real text16 6 (t_time a) in let! t1 := real text16 6 (t_time b) in
  let two (f : ptree_of_point -> Z) := int_text (f a) ++ s ", " ++ int_text (f b) ++ [newline] in
  let counts := flat_map (fun e : Z * Z => [tab] ++ s "(" ++ int_text (fst e) ++ s ") " ++ int_text (snd e)) in
  Ok (head
    ++ s "  Header Point Count: " ++ int_text (h_npts h) ++ [newline]
    ++ s "  Actual Point Count: " ++ int_text (k_count r) ++ [newline]
    ++ [newline]
    ++ s "  Minimum and Maximum Attributes (min,max)" ++ [newline]
    ++ dashes
    ++ s "  Min X, Y, Z: " ++ tabs 2 ++ x0 ++ s ", " ++ y0 ++ s ", " ++ z0 ++ [newline]
    ++ s "  Max X, Y, Z: " ++ tabs 2 ++ x1 ++ s ", " ++ y1 ++ s ", " ++ z1 ++ [newline]
    ++ s "  Bounding Box:" ++ tabs 2 ++ x0 ++ s ", " ++ y0 ++ s ", " ++ x1 ++ s ", " ++ y1 ++ [newline]
    ++ s "  Time:" ++ tabs 3 ++ t0 ++ s ", " ++ t1 ++ [newline]
    ++ s "  Return Number:" ++ tabs 1 ++ two t_return
    ++ s "  Return Count:" ++ tabs 2 ++ two t_returns
    ++ s "  Flightline Edge:" ++ tabs 1 ++ two t_edge
    ++ s "  Intensity:" ++ tabs 2 ++ two t_intensity
    ++ s "  Scan Direction Flag:" ++ tabs 1 ++ two t_dir
    ++ s "  Scan Angle Rank:" ++ tabs 1 ++ two t_angle
    ++ s "  Classification:" ++ tabs 1 ++ two (fun p => class_get (t_class p))
    ++ s "  Point Source Id:" ++ tabs 1 ++ two t_source
    ++ s "  User Data:" ++ tabs 2 ++ two t_user
    ++ s "  Minimum Color (RGB):" ++ tabs 1 ++ int_text (t_red a) ++ s " " ++ int_text (t_green a) ++ s " " ++ int_text (t_blue a) ++ s " " ++ [newline]
    ++ s "  Maximum Color (RGB):" ++ tabs 1 ++ int_text (t_red b) ++ s " " ++ int_text (t_green b) ++ s " " ++ int_text (t_blue b) ++ s " " ++ [newline]
    ++ [newline]
    ++ s "  Number of Points by Return" ++ [newline] ++ dashes ++ counts (k_returns r) ++ [newline]
    ++ [newline]
    ++ s "  Number of Returns by Pulse" ++ [newline] ++ dashes ++ counts (k_pulses r) ++ [newline]
    ++ [newline]
    ++ s "  Point Classifications" ++ [newline] ++ dashes
    ++ flat_map (fun e : Z * Z => [tab] ++ int_text (snd e) ++ s " " ++ s (nth (Z.to_nat (fst e)) class_names "") ++ s " (" ++ int_text (fst e) ++ s ") " ++ [newline]) (k_classes r)
    ++ dashes2
    ++ s "  " ++ [tab] ++ int_text (k_withheld r) ++ s " withheld" ++ [newline]
    ++ s "  " ++ [tab] ++ int_text (k_keypoint r) ++ s " keypoint" ++ [newline]
    ++ s "  " ++ [tab] ++ int_text (k_synthetic r) ++ s " synthetic" ++ [newline]
    ++ dashes2).

(** ** Summary objects.  The two points of a summary keep the address of a header:
    [s_points], the number of the summary object whose header it is (Point_Model
    has the header itself in the point). *)
Record sobject := mkSo { s_sum : summary; s_points : nat }.
(** utility.cpp:307-315 and 111-160, on object number [me] *)
Definition so_new (me : nat) (h0 h : header) : sobject := mkSo (summary_set_header (summary_new h0) h) me.
Definition so_add (me : nat) (o : sobject) (p : point) : outcome sobject :=
  let! u := summary_add (s_sum o) p in Ok (mkSo u (if u_first (s_sum o) then me else s_points o)).
(** utility.cpp:89-109: the new points are copies and keep the address
    (point.cpp:75-80) *)
Definition so_assign (o : sobject) : outcome sobject := let! u := summary_copy (s_sum o) in Ok (mkSo u (s_points o)).
(** utility.cpp:323-331: the points are asked for their coordinates, format etc.
    [stale]: a destroyed header still reads as before (what a compiler may well
    produce); otherwise that is undefined (UBUninit). *)
Definition so_text (stale : bool) (alive : list nat) lg text16 (o : sobject) : outcome text :=
  if stale || existsb (Nat.eqb (s_points o)) alive then summary_text lg text16 (s_sum o) else UB UBUninit.

(** lasinfo.cpp:23-65 *)
Fixpoint check_points {FS} (me : nat) (flt : option (FS -> point -> bool * FS)) (fuel : nat) (r : reader) (fs : FS) (o : sobject) : outcome sobject :=
  match fuel with
  | O => UB UBDiverge
  | S k =>
      match reader_next flt no_transform r fs with
      | ((r1, fs1), Ok true) => let! o1 := so_add me o (r_point r1) in check_points me flt k r1 fs1 o1
      | (_, Ok false) => Ok o
      | (_, Throw e) => Throw e
      | (_, UB u) => UB u
      end
  end.
(** lasinfo.cpp:239-246, 277-280: [summary = check_points(...)] copies the object 1
    that check_points made into main's object 0 and destroys it. *)
Definition lasinfo {FS} (stale : bool) (lg : f64 -> f64) (t : tool) (flt : option (FS -> point -> bool * FS)) (fs : FS) (fuel : nat) (F : list Z) : outcome text :=
  let! r := reader_open (t_xml t) (t_doy t) (t_year t) F in
  let! h0 := header_new (t_doy t) (t_year t) in
  let! o := check_points 1%nat flt fuel r fs (so_new 1%nat h0 (r_hdr r)) in
  let! o := so_assign o in
  let! txt := so_text stale [0%nat] lg (t_text t) o in
  Ok (txt ++ [newline]).

(** ** --point: lasinfo.cpp:206-236, point.cpp:350-382 *)
Definition yes_no (b : bool) : text := s (if b then "true" else "false").
Definition point_text (text16 : f64 -> outcome f64) (p : point) : outcome text :=
  let! a := point_ptree p in
  let! x := real text16 6 (t_x a) in let! y := real text16 6 (t_y a) in let! z := real text16 6 (t_z a) in let! tm := real text16 6 (t_time a) in
  let int f := int_text (f a) ++ [newline] in
  let c := t_class a in
  Ok (dashes
    ++ s "  X: " ++ tabs 3 ++ x ++ [newline] ++ s "  Y: " ++ tabs 3 ++ y ++ [newline] ++ s "  Z: " ++ tabs 3 ++ z ++ [newline]
    ++ s "  Time: " ++ tabs 2 ++ tm ++ [newline]
    ++ s "  Return Number: " ++ tabs 1 ++ int t_return ++ s "  Return Count: " ++ tabs 1 ++ int t_returns
    ++ s "  Flightline Edge: " ++ tabs 1 ++ int t_edge ++ s "  Intensity: " ++ tabs 2 ++ int t_intensity
    ++ s "  Scan Direction: " ++ tabs 1 ++ int t_dir ++ s "  Scan Angle Rank: " ++ tabs 1 ++ int t_angle
    ++ s "  Classification: " ++ tabs 1 ++ s (nth (Z.to_nat (class_get c)) class_names "") ++ [newline]
    ++ s "         witheld: " ++ tabs 1 ++ yes_no (class_is_withheld c) ++ [newline]
    ++ s "        keypoint: " ++ tabs 1 ++ yes_no (class_is_keypoint c) ++ [newline]
    ++ s "       synthetic: " ++ tabs 1 ++ yes_no (class_is_synthetic c) ++ [newline]
    ++ s "  RGB Color: " ++ tabs 2 ++ int_text (t_red a) ++ s " " ++ int_text (t_green a) ++ s " " ++ int_text (t_blue a) ++ [newline]
    ++ dashes).
(** Result: the text (None: "Unable to read point", exit code 1).  The result of
    ReadPointAt is not looked at. *)
Definition lasinfo_point (t : tool) (n : Z) (F : list Z) : outcome (option text) :=
  let! r := reader_open (t_xml t) (t_doy t) (t_year t) F in
  match reader_at no_transform r n with
  | (_, Throw EOutOfRange) => Ok None
  | (_, Throw e) => Throw e
  | (_, UB u) => UB u
  | (r1, Ok _) => let! x := point_text (t_text t) (r_point r1) in Ok (Some (x ++ [newline]))
  end.

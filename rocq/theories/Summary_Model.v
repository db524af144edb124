(** Model of class Summary: /repo/src/utility.cpp:52-392,
    /repo/include/liblas/utility.hpp:65-97.  Text output (operator<<) is not
    modelled; GetPTree is modelled as the numbers it stores, not as text. *)
From Coq Require Import ZArith List Bool String.
Import ListNotations.
From Verif Require Import Outcome Bytes Float64 Classif_Model Schema_Model Header_Model Point_Model.
Local Open Scope Z_scope.

(** utility.hpp:80-96.  [u_min], [u_max]: boost::shared_ptr, [None] is null.
    When [u_have_header] is set both points refer to [u_header]; the model keeps
    a copy of it in them and renews the copy where AddPoint changes it. *)
Record summary := mkSummary {
  u_classes : list Z; u_synthetic : Z; u_withheld : Z; u_keypoint : Z; u_count : Z;
  u_returns : list Z; u_pulses : list Z; u_first : bool;
  u_min : option point; u_max : option point;
  u_header : header; u_have_header : bool; u_have_color : bool; u_have_time : bool }.

(** utility.cpp:52-68; [h0]: the default header *)
Definition summary_new (h0 : header) : summary :=
  mkSummary (repeat 0 32) 0 0 0 0 (repeat 0 8) (repeat 0 8) true None None h0 false true true.

(** utility.cpp:307-315 *)
Definition summary_set_header (u : summary) (h : header) : summary :=
  mkSummary (u_classes u) (u_synthetic u) (u_withheld u) (u_keypoint u) (u_count u)
    (u_returns u) (u_pulses u) (u_first u) (Some (point_new h)) (Some (point_new h))
    h true (u_have_color u) (u_have_time u).

(** uint32_t increment *)
Definition incr (n : Z) : Z := (n + 1) mod 2 ^ 32.
(** a[i]++ on a boost::array *)
Definition incr_at (l : list Z) (i : Z) : outcome (list Z) :=
  match nth_error l (Z.to_nat i) with
  | Some n => Ok (list_set l (Z.to_nat i) (incr n))
  | None => UB UBOutOfBounds
  end.

(** The pattern of utility.cpp:162-225:
    if (p.Get() < minimum.Get()) minimum.Set(p.Get());
    if (p.Get() > maximum.Get()) maximum.Set(p.Get()); *)
Definition extend (get : point -> outcome Z) (set : point -> Z -> outcome point) (p : point)
    (mm : point * point) : outcome (point * point) :=
  let (mn, mx) := mm in
  let! v := get p in
  let! lo := get mn in
  let! mn1 := if v <? lo then set mn v else Ok mn in
  let! hi := get mx in
  let! mx1 := if v >? hi then set mx v else Ok mx in
  Ok (mn1, mx1).
(** utility.cpp:182-188 *)
Definition extend_time (p : point) (mm : point * point) : outcome (point * point) :=
  let (mn, mx) := mm in
  let! v := get_time p in
  let! lo := get_time mn in
  let! mn1 := if f64_lt v lo then set_time mn v else Ok mn in
  let! hi := get_time mx in
  let! mx1 := if f64_gt v hi then set_time mx v else Ok mx in
  Ok (mn1, mx1).
(** utility.cpp:228-242.  Classification(minc) has no flag set. *)
Definition extend_class (p : point) (mm : point * point) : outcome (point * point) :=
  let (mn, mx) := mm in
  let! c := get_classification p in
  let! lo := get_classification mn in
  let! hi := get_classification mx in
  let minc := Z.min (class_get c) (class_get lo) in
  let maxc := Z.max (class_get c) (class_get hi) in
  let! mn1 := if minc <? class_get lo then set_classification mn (class_of_byte minc) else Ok mn in
  let! mx1 := if maxc >? class_get hi then set_classification mx (class_of_byte maxc) else Ok mx in
  Ok (mn1, mx1).
(** utility.cpp:244-300 (bHaveColor) *)
Definition extend_color (p : point) (mm : point * point) : outcome (point * point) :=
  let (mn, mx) := mm in
  let! c := get_color p in
  let! lo := get_color mn in
  let! hi := get_color mx in
  let pick (b : bool) (x y : Z) := if b then x else y in
  let r1 := c_red c <? c_red lo in let g1 := c_green c <? c_green lo in let b1 := c_blue c <? c_blue lo in
  let r2 := c_red c >? c_red hi in let g2 := c_green c >? c_green hi in let b2 := c_blue c >? c_blue hi in
  let! mn1 := if r1 || g1 || b1
    then set_color mn (mkColor (pick r1 (c_red c) (c_red lo)) (pick g1 (c_green c) (c_green lo)) (pick b1 (c_blue c) (c_blue lo)))
    else Ok mn in
  let! mx1 := if r2 || g2 || b2
    then set_color mx (mkColor (pick r2 (c_red c) (c_red hi)) (pick g2 (c_green c) (c_green hi)) (pick b2 (c_blue c) (c_blue hi)))
    else Ok mx in
  Ok (mn1, mx1).

(** utility.cpp:115-160, the first point: minimum and maximum are copies of it,
    moved to the summary's header if there is one; then that header takes over
    the point's scale, offset and format.  Result: minimum, maximum, header,
    bHaveColor, bHaveTime. *)
Definition first_point (u : summary) (p : point) : outcome (point * point * header * bool * bool) :=
  let h := p_hdr p in
  let! mx := if u_have_header u then set_header p (u_header u) else Ok p in
  let! mn := if u_have_header u then set_header p (u_header u) else Ok p in
  let '(sx, sy, sz) := h_scale h in
  let '(ox, oy, oz) := h_offset h in
  let h1 := set_offset (set_scale (u_header u) sx sy sz) ox oy oz in
  let! h2 := if negb (get_format h1 =? get_format h)
             then let (h2, r) := set_header_format h1 (get_format h) in let! _ := r in Ok h2
             else Ok h1 in
  let renew q := if u_have_header u then mkPoint (p_data q) h2 else q in
  Ok (renew mn, renew mx, h2, has_dim h "Red" && has_dim h "Green" && has_dim h "Blue", has_dim h "Time").

(** utility.cpp:111-305 *)
Definition summary_add (u : summary) (p : point) : outcome summary :=
  let count := incr (u_count u) in
  let! f := if u_first u then first_point u p
            else match u_min u, u_max u with
                 | Some mn, Some mx => Ok (mn, mx, u_header u, u_have_color u, u_have_time u)
                 | _, _ => UB UBNull
                 end in
  let '(mn0, mx0, hdr, hc, ht) := f in
  let! mm := extend get_raw_x set_raw_x p (mn0, mx0) in
  let! mm := extend get_raw_y set_raw_y p mm in
  let! mm := extend get_raw_z set_raw_z p mm in
  let! mm := extend get_intensity set_intensity p mm in
  let! mm := if ht : bool then extend_time p mm else Ok mm in
  let! mm := extend get_return_number set_return_number p mm in
  let! mm := extend get_number_of_returns set_number_of_returns p mm in
  let! mm := extend get_scan_direction set_scan_direction p mm in
  let! mm := extend get_flight_line_edge set_flight_line_edge p mm in
  let! mm := extend get_scan_angle set_scan_angle p mm in
  let! mm := extend get_user_data set_user_data p mm in
  let! mm := extend get_point_source_id set_point_source_id p mm in
  let! c := get_classification p in
  let! classes := incr_at (u_classes u) (class_get c) in
  let! mm := extend_class p mm in
  let! mm := if hc : bool then extend_color p mm else Ok mm in
  let! rn := get_return_number p in
  let! returns := incr_at (u_returns u) rn in
  let! nr := get_number_of_returns p in
  let! pulses := incr_at (u_pulses u) nr in
  Ok (mkSummary classes
        (if class_is_synthetic c then incr (u_synthetic u) else u_synthetic u)
        (if class_is_withheld c then incr (u_withheld u) else u_withheld u)
        (if class_is_keypoint c then incr (u_keypoint u) else u_keypoint u)
        count returns pulses false (Some (fst mm)) (Some (snd mm)) hdr (u_have_header u) hc ht).

(** Feeding points one after the other (Summary as a filter of a reader:
    filter, utility.cpp:317-321, calls AddPoint and accepts). *)
Fixpoint summary_feed (u : summary) (ps : list point) : outcome summary :=
  match ps with
  | [] => Ok u
  | p :: ps => let! u1 := summary_add u p in summary_feed u1 ps
  end.

(** utility.cpp:70-87, copy constructor: dereferences minimum and maximum *)
Definition summary_copy (u : summary) : outcome summary :=
  match u_min u, u_max u with Some _, Some _ => Ok u | _, _ => UB UBNull end.

(** utility.cpp:323-391 GetPTree: the counts it reports.  [k_classes],
    [k_returns], [k_pulses] are (id, count) pairs. *)
Record report := mkReport {
  k_min : point; k_max : point; k_classes : list (Z * Z); k_withheld : Z; k_keypoint : Z; k_synthetic : Z;
  k_returns : list (Z * Z); k_pulses : list (Z * Z); k_count : Z }.
(** nonzero entries of an array with their index, from index [i] on *)
Fixpoint nonzero_from (i : Z) (l : list Z) : list (Z * Z) :=
  match l with [] => [] | n :: r => if n =? 0 then nonzero_from (i + 1) r else (i, n) :: nonzero_from (i + 1) r end.
Definition summary_report (u : summary) : outcome report :=
  match u_min u, u_max u with
  | Some mn, Some mx =>
      let rets := match u_returns u with [] => [] | _ :: r => nonzero_from 1 r end in
      Ok (mkReport mn mx (nonzero_from 0 (u_classes u)) (u_withheld u) (u_keypoint u) (u_synthetic u)
            (match rets with [] => [(1, u_count u)] | _ => rets end)
            (nonzero_from 0 (u_pulses u)) (u_count u))
  | _, _ => UB UBNull
  end.

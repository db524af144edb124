(** Model of Point (/repo/src/point.cpp).

    Host: little-endian, where the [#ifdef LIBLAS_ENDIAN_AWARE] and the
    reinterpret_cast variants of the getters coincide. *)
From Coq Require Import ZArith List Bool String.
Import ListNotations.
From Verif Require Import Outcome Bytes Float64 Endian_Model Classif_Model Schema_Model Header_Model.
Local Open Scope Z_scope.

(** point.hpp: [m_data] and [m_header]; the header is held by pointer, here by
    value (the theorems never mutate a header behind a point's back). *)
Record point := mkPoint { p_data : list Z; p_hdr : header }.

Definition p_upd (p : point) (d : list Z) : point := mkPoint d (p_hdr p).

(** point.cpp:66-73 *)
Definition point_new (h : header) : point :=
  mkPoint (repeat 0 (Z.to_nat (get_record_length h))) h.

(** private_utility.hpp:360-378 [bitsToInt]/[intToBits] *)
Definition bits_to_int (sign : bool) (n : nat) (d : list Z) (pos : Z) : outcome Z :=
  endian_load LittleE LittleE sign n d pos.
Definition int_to_bits (n : nat) (d : list Z) (pos v : Z) : outcome (list Z) :=
  endian_store LittleE LittleE n d pos v.

Definition set_int (p : point) (n : nat) (pos v : Z) : outcome point :=
  let! d := int_to_bits n (p_data p) pos v in Ok (p_upd p d).

(** point.cpp:459-529 *)
Definition get_raw_x (p : point) : outcome Z := bits_to_int true 4 (p_data p) 0.
Definition get_raw_y (p : point) : outcome Z := bits_to_int true 4 (p_data p) 4.
Definition get_raw_z (p : point) : outcome Z := bits_to_int true 4 (p_data p) 8.
Definition set_raw_x (p : point) (v : Z) : outcome point := set_int p 4 0 v.
Definition set_raw_y (p : point) (v : Z) : outcome point := set_int p 4 4 v.
Definition set_raw_z (p : point) (v : Z) : outcome point := set_int p 4 8 v.

(** point.cpp:531-557 *)
Definition get_intensity (p : point) : outcome Z := bits_to_int false 2 (p_data p) 12.
Definition set_intensity (p : point) (v : Z) : outcome point := set_int p 2 12 v.

(** m_data[pos] read / write *)
Definition get_byte (p : point) (pos : Z) : outcome Z := deref (p_data p) pos.
Definition set_byte (p : point) (pos v : Z) : outcome point :=
  let! d := assign (p_data p) pos (v mod 256) in Ok (p_upd p d).

(** point.cpp:559-577 *)
Definition get_flags (p : point) : outcome Z := get_byte p 14.
Definition set_flags (p : point) (v : Z) : outcome point := set_byte p 14 v.

(** The common shape of the four bit-field setters: mask = m << s;
    flags &= ~mask; flags |= mask & (uint8_t(num) << s); stored in a uint8_t. *)
Definition put_field (flags m s num : Z) : Z :=
  let mask := Z.shiftl m s in
  let flags1 := Z.land flags (Z.lnot mask) mod 256 in
  Z.lor flags1 (Z.land mask (Z.shiftl (num mod 256) s)) mod 256.

(** point.cpp:579-603 *)
Definition get_return_number (p : point) : outcome Z :=
  let! f := get_byte p 14 in Ok (Z.land f 7).
Definition set_return_number (p : point) (num : Z) : outcome point :=
  let! f := get_byte p 14 in set_byte p 14 (put_field f 7 0 num).
(** point.cpp:605-633 *)
Definition get_number_of_returns (p : point) : outcome Z :=
  let! f := get_byte p 14 in Ok (Z.land (Z.shiftr f 3) 7).
Definition set_number_of_returns (p : point) (num : Z) : outcome point :=
  let! f := get_byte p 14 in set_byte p 14 (put_field f 7 3 num).
(** point.cpp:635-659 *)
Definition set_scan_direction (p : point) (dir : Z) : outcome point :=
  let! f := get_byte p 14 in set_byte p 14 (put_field f 1 6 dir).
Definition get_scan_direction (p : point) : outcome Z :=
  let! f := get_byte p 14 in Ok (Z.land (Z.shiftr f 6) 1).
(** point.cpp:661-687 *)
Definition set_flight_line_edge (p : point) (e : Z) : outcome point :=
  let! f := get_byte p 14 in set_byte p 14 (put_field f 1 7 e).
Definition get_flight_line_edge (p : point) : outcome Z :=
  let! f := get_byte p 14 in Ok (Z.land (Z.shiftr f 7) 1).

(** point.cpp:690-722 (the value is the Classification's flag byte) *)
Definition get_classification (p : point) : outcome Z :=
  let! f := get_byte p 15 in Ok (class_of_byte f).
Definition set_classification (p : point) (flags : Z) : outcome point := set_byte p 15 flags.

(** point.cpp:724-740: int8_t stored in / converted back from a uint8_t *)
Definition set_scan_angle (p : point) (rank : Z) : outcome point := set_byte p 16 rank.
Definition get_scan_angle (p : point) : outcome Z :=
  let! b := get_byte p 16 in Ok (to_signed 8 b).
(** point.cpp:742-756 *)
Definition get_user_data (p : point) : outcome Z := get_byte p 17.
Definition set_user_data (p : point) (v : Z) : outcome point := set_byte p 17 v.
(** point.cpp:758-782 *)
Definition get_point_source_id (p : point) : outcome Z := bits_to_int false 2 (p_data p) 18.
Definition set_point_source_id (p : point) (v : Z) : outcome point := set_int p 2 18 v.

Definition p_format (p : point) : Z := get_format (p_hdr p).

(** point.cpp:784-804 *)
Definition set_time (p : point) (t : f64) : outcome point :=
  let f := p_format p in
  if (f =? 0) || (f =? 2) then Throw EInvalidFormat
  else let! d := endian_store_double LittleE LittleE (p_data p) 20 (f64_bits t) in Ok (p_upd p d).
(** point.cpp:806-833 *)
Definition get_time (p : point) : outcome f64 :=
  let f := p_format p in
  if (f =? 0) || (f =? 2) then Ok f64_zero
  else let! b := endian_load_double LittleE LittleE (p_data p) 20 in Ok (f64_of_bits b).

(** point.cpp:835-896 *)
Definition get_color (p : point) : outcome color :=
  let f := p_format p in
  if (f =? 0) || (f =? 1) then Ok color_black
  else
    let index_pos := if f =? 3 then 20 + 8 else 20 in
    let! r := bits_to_int false 2 (p_data p) index_pos in
    let! g := bits_to_int false 2 (p_data p) (index_pos + 2) in
    let! b := bits_to_int false 2 (p_data p) (index_pos + 4) in
    Ok (mkColor r g b).
(** point.cpp:898-941 *)
Definition set_color (p : point) (c : color) : outcome point :=
  let f := p_format p in
  if (f =? 0) || (f =? 1) then Throw EInvalidFormat
  else if (Z.of_nat (List.length (p_data p)) =? 0) || (f =? 1) then Throw EInvalidFormat
  else
    let pos0 := 20 in
    let pos1 := if f =? 3 then 28 else pos0 in
    let index_pos := if f =? 2 then 20 else pos1 in
    let! p1 := set_int p 2 index_pos (c_red c) in
    let! p2 := set_int p1 2 (index_pos + 2) (c_green c) in
    set_int p2 2 (index_pos + 4) (c_blue c).

(** point.cpp:385-411: int32 to double, multiply, add *)
Definition descale (scale offset : f64) (v : Z) : f64 := f64_add (f64_mul (f64_of_Z v) scale) offset.
Definition get_x (p : point) : outcome f64 :=
  let! v := get_raw_x p in Ok (descale (x_of (h_scale (p_hdr p))) (x_of (h_offset (p_hdr p))) v).
Definition get_y (p : point) : outcome f64 :=
  let! v := get_raw_y p in Ok (descale (y_of (h_scale (p_hdr p))) (y_of (h_offset (p_hdr p))) v).
Definition get_z (p : point) : outcome f64 :=
  let! v := get_raw_z p in Ok (descale (z_of (h_scale (p_hdr p))) (z_of (h_offset (p_hdr p))) v).

(** point.cpp:413-457: static_cast<int32_t>(sround((value - offset) / scale)) *)
Definition quantise (scale offset value : f64) : outcome Z :=
  f64_to_int32 (sround (f64_div (f64_sub value offset) scale)).
Definition set_x (p : point) (v : f64) : outcome point :=
  let! q := quantise (x_of (h_scale (p_hdr p))) (x_of (h_offset (p_hdr p))) v in set_raw_x p q.
Definition set_y (p : point) (v : f64) : outcome point :=
  let! q := quantise (y_of (h_scale (p_hdr p))) (y_of (h_offset (p_hdr p))) v in set_raw_y p q.
Definition set_z (p : point) (v : f64) : outcome point :=
  let! q := quantise (z_of (h_scale (p_hdr p))) (z_of (h_offset (p_hdr p))) v in set_raw_z p q.
(** point.cpp:92-97 *)
Definition set_coordinates (p : point) (x y z : f64) : outcome point :=
  let! p1 := set_x p x in let! p2 := set_y p1 y in set_z p2 z.

(** point.cpp:99-129, epsilon = 0.00001 (nearest double 0x3EE4F8B588E368F1) *)
Definition eps_equal : f64 := f64_of_bits 4532020583610935537.
Definition within_eps (d : f64) : bool := f64_le d eps_equal && f64_ge d (f64_opp eps_equal).
Definition point_equal (p q : point) : outcome bool :=
  let! px := get_x p in let! qx := get_x q in
  let! py := get_y p in let! qy := get_y q in
  let! pz := get_z p in let! qz := get_z q in
  Ok (within_eps (f64_sub px qx) && within_eps (f64_sub py qy) && within_eps (f64_sub pz qz)).

(** point.hpp enum eScanAngleRankMin/Max *)
Definition eScanAngleRankMin : Z := -90.
Definition eScanAngleRankMax : Z := 90.
(** point.cpp:131-159 *)
Definition validate (p : point) : outcome bool :=
  let! rn := get_return_number p in
  let! nr := get_number_of_returns p in
  let! sd := get_scan_direction p in
  let! fe := get_flight_line_edge p in
  let! sa := get_scan_angle p in
  if (7 <? rn) || (7 <? nr) || (1 <? sd) || (1 <? fe)
     || ((sa <? eScanAngleRankMin) || (eScanAngleRankMax <? sa))
  then Throw EInvalidPointData else Ok true.
(** point.cpp:161-180 *)
Definition is_valid (p : point) : outcome bool :=
  let! sa := get_scan_angle p in
  if (sa <? eScanAngleRankMin) || (eScanAngleRankMax <? sa) then Ok false else
  let! fe := get_flight_line_edge p in if 1 <? fe then Ok false else
  let! sd := get_scan_direction p in if 1 <? sd then Ok false else
  let! nr := get_number_of_returns p in if 7 <? nr then Ok false else
  let! rn := get_return_number p in if 7 <? rn then Ok false else Ok true.

(** point.cpp:182-288.  The "!m_header" case is not represented: a point always
    has a header here.  [zsum]: std::accumulate over the bytes (int). *)
Definition zsum (l : list Z) : Z := fold_left Z.add l 0.
Definition scaling_differs (a b : header) : bool :=
  negb (compare_distance (x_of (h_scale a)) (x_of (h_scale b)) &&
        compare_distance (y_of (h_scale a)) (y_of (h_scale b)) &&
        compare_distance (z_of (h_scale a)) (z_of (h_scale b)) &&
        compare_distance (x_of (h_offset a)) (x_of (h_offset b)) &&
        compare_distance (y_of (h_offset a)) (y_of (h_offset b)) &&
        compare_distance (z_of (h_offset a)) (z_of (h_offset b))).

Definition has_dim (h : header) (n : string) : bool :=
  match get_dimension (h_schema h) n with Some _ => true | None => false end.

Definition set_header (p : point) (h : header) : outcome point :=
  let wanted := get_record_length h in
  if zsum (p_data p) =? 0 then Ok (mkPoint (repeat 0 (Z.to_nat wanted)) h)
  else
    let rescale := scaling_differs h (p_hdr p) in
    let! p1 :=
      if negb (wanted =? Z.of_nat (List.length (p_data p)))
      then
        let q := mkPoint (repeat 0 (Z.to_nat wanted)) h in
        let! x := get_x p in let! q := set_x q x in
        let! y := get_y p in let! q := set_y q y in
        let! z := get_z p in let! q := set_z q z in
        let! v := get_intensity p in let! q := set_intensity q v in
        let! v := get_flags p in let! q := set_flags q v in
        let! v := get_classification p in let! q := set_classification q v in
        let! v := get_scan_angle p in let! q := set_scan_angle q v in
        let! v := get_user_data p in let! q := set_user_data q v in
        let! v := get_point_source_id p in let! q := set_point_source_id q v in
        let! q := if has_dim h "Time" then let! t := get_time p in set_time q t else Ok q in
        if has_dim h "Red" then let! c := get_color p in set_color q c else Ok q
      else Ok p in
    if rescale
    then
      let! x := get_x p1 in let! y := get_y p1 in let! z := get_z p1 in
      let q := mkPoint (p_data p1) h in
      let! q := set_x q x in let! q := set_y q y in set_z q z
    else Ok (mkPoint (p_data p1) h).

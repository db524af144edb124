(** Model of las2txt: /repo/apps/las2txt.cpp (GetLabels 34-143, GetPointString
    145-282, write_points 294-350, the output name and the precisions in main
    368-635) and /repo/src/utility.cpp:736-746 (GetStreamPrecision).
    Simplifications: the options arrive parsed (boost::program_options and
    lexical_cast are not modelled); --header, --xml (which the program never looks
    at) and the messages of --verbose are left out; the options that make filters
    are any filter without state; std::log10 is the parameter [lg]; output streams
    do not fail; texts are lists of characters; locale C. *)
From Coq Require Import ZArith List Bool String Ascii.
Import ListNotations.
From Flocq Require Import Core BinarySingleNaN Binary Bits.
From Verif Require Import Outcome Bytes Float64 Classif_Model Schema_Model Header_Model Vlr_Model Point_Model Stream_Model Reader_Model Reader_Api.
Local Open Scope string_scope.
Local Open Scope list_scope.
Local Open Scope Z_scope.

Definition text := list ascii.
Definition of_string : string -> text := list_ascii_of_string.
Definition newline : ascii := ascii_of_nat 10.
Definition tab : ascii := ascii_of_nat 9.

(** ** operator<< for integers (base 10) *)
Definition digit (d : Z) : ascii := ascii_of_nat (48 + Z.to_nat d).
Fixpoint digits (fuel : nat) (n : Z) : text :=
  match fuel with
  | O => []
  | S k => (if n <? 10 then [] else digits k (n / 10)) ++ [digit (n mod 10)]
  end.
Definition nat_text (n : Z) : text := digits (S (Z.to_nat (Z.log2 n))) n.
Definition int_text (z : Z) : text := if z <? 0 then "-"%char :: nat_text (- z) else nat_text z.

(** ** operator<< for doubles with std::fixed and a precision ("%.*f"): the nearest
    multiple of 10^-p, ties to even, which is exact in glibc *)
Definition half_even (n d : Z) : Z :=
  let q := n / d in let r := n mod d in
  if 2 * r <? d then q else if d <? 2 * r then q + 1 else if Z.even q then q else q + 1.
Definition units (p : nat) (m e : Z) : Z :=
  let n := m * 10 ^ Z.of_nat p in
  if 0 <=? e then n * 2 ^ e else half_even n (2 ^ (- e)).
(** exactly [k] digits *)
Fixpoint padded (k : nat) (n : Z) : text :=
  match k with O => [] | S k => padded k (n / 10) ++ [digit (n mod 10)] end.
Definition decimal_text (p : nat) (n : Z) : text :=
  nat_text (n / 10 ^ Z.of_nat p) ++ match p with O => [] | _ => "."%char :: padded p (n mod 10 ^ Z.of_nat p) end.
Definition sign_text (s : bool) : text := if s then ["-"%char] else [].
Definition fixed_text (p : nat) (x : f64) : text :=
  match x with
  | B754_zero _ _ s => sign_text s ++ decimal_text p 0
  | B754_finite _ _ s m e _ => sign_text s ++ decimal_text p (units p (Zpos m) e)
  | B754_infinity _ _ s => sign_text s ++ of_string "inf"
  | B754_nan _ _ s _ _ => sign_text s ++ of_string "nan"
  end.

(** ** utility.cpp:736-746 *)
Definition f64_trunc (x : f64) : f64 := Bnearbyint 53 1024 prec53_lt_emax unop_nan_pl64 mode_ZR x.
Definition f64_abs (x : f64) : f64 := b64_abs x.
Definition stream_precision (lg : f64 -> f64) (scale : f64) : outcome Z :=
  let frac := f64_sub scale (f64_trunc scale) in
  f64_to_uint32 (f64_abs (f64_floor (lg frac))).

(** classification.cpp:54-89 *)
Definition class_names : list string :=
  ["Created, never classified"; "Unclassified"; "Ground"; "Low Vegetation"; "Medium Vegetation"; "High Vegetation"; "Building"; "Low Point (noise)";
    "Model Key-point (mass point)"; "Water"; "Reserved for ASPRS Definition"; "Reserved for ASPRS Definition"; "Overlap Points"]
  ++ repeat "Reserved for ASPRS Definition" 19.

(** las2txt.cpp:159-262: what one letter prints; [pr]: the precisions of x, y, z, t *)
Definition precisions := (nat * nat * nat * nat)%type.
Definition letter_text (pr : precisions) (index : Z) (p : point) (c : ascii) : outcome text :=
  let '(px, py, pz, pt) := pr in
  let int v := let! v := v in Ok (int_text v) in
  let col g := let! c := get_color p in Ok (int_text (g c)) in
  match c with
  | "x" => let! v := get_x p in Ok (fixed_text px v)
  | "y" => let! v := get_y p in Ok (fixed_text py v)
  | "z" => let! v := get_z p in Ok (fixed_text pz v)
  | "t" => let! v := get_time p in Ok (fixed_text pt v)
  | "X" => int (get_raw_x p) | "Y" => int (get_raw_y p) | "Z" => int (get_raw_z p)
  | "i" => int (get_intensity p)
  | "a" => int (get_scan_angle p)
  | "r" => int (get_return_number p)
  | "n" => int (get_number_of_returns p)
  | "c" => int (let! f := get_classification p in Ok (class_get f))
  | "C" => let! f := get_classification p in let! i := class_name_index f in Ok (of_string (nth (Z.to_nat i) class_names EmptyString))
  | "u" => int (get_user_data p)
  | "R" => col c_red | "G" => col c_green | "B" => col c_blue
  | "M" => Ok (int_text index)
  | "p" => int (get_point_source_id p)
  | "e" => int (get_flight_line_edge p)
  | "d" => int (get_scan_direction p)
  | _ => Ok []
  end%char.
(** las2txt.cpp:43-126: what one letter labels *)
Definition label_text (c : ascii) : text :=
  let q s := """"%char :: of_string s ++ [""""%char] in
  match c with
  | "x"%char => q "X" | "y"%char => q "Y" | "z"%char => q "Z" | "X"%char => q "Raw X" | "Y"%char => q "Raw Y" | "Z"%char => q "Raw Z" | "t"%char => q "Time" | "i"%char => q "Intensity"
  | "a"%char => q "Scan Angle" | "r"%char => q "Return Number" | "c"%char => q "Classification" | "C"%char => q "Classification Name" | "u"%char => q "User Data"
  | "n"%char => q "Number of Returns" | "R"%char => q "Red" | "G"%char => q "Green" | "B"%char => q "Blue" | "M"%char => q "ID" | "p"%char => q "Point Source ID"
  | "e"%char => q "Flight Line Edge" | "d"%char => q "Scan Direction" | _ => []
  end.

(** The loops over the letters (las2txt.cpp:39-141 and 154-278): the text of the
    current letter, then the delimiter, or the end of the line behind the last
    letter.  An empty string is read behind its end. *)
Fixpoint letters_text (f : ascii -> outcome text) (delim : text) (c : ascii) (rest : text) : outcome text :=
  let! t := f c in
  match rest with
  | [] => Ok (t ++ [newline])
  | c1 :: rest1 => let! ts := letters_text f delim c1 rest1 in Ok (t ++ delim ++ ts)
  end.
Definition row_text (f : ascii -> outcome text) (delim parse : text) : outcome text :=
  match parse with [] => UB UBOutOfBounds | c :: rest => letters_text f delim c rest end.
(** las2txt.cpp:145-282; GetColor is called for every point *)
Definition point_string (parse delim : text) (pr : precisions) (index : Z) (p : point) : outcome text :=
  let! _ := get_color p in row_text (letter_text pr index p) delim parse.

(** las2txt.cpp:314-346 *)
Fixpoint write_points (keep : option (unit -> point -> bool * unit)) (parse delim : text) (pr : precisions) (fuel : nat) (r : reader) (index : Z) : outcome text :=
  match fuel with
  | O => UB UBDiverge
  | S k =>
      match reader_next keep no_transform r tt with
      | ((r1, _), Ok true) =>
          let! line := point_string parse delim pr index (r_point r1) in
          let! more := write_points keep parse delim pr k r1 ((index + 1) mod 2 ^ 32) in Ok (line ++ more)
      | (_, Ok false) => Ok []
      | (_, Throw e) => Throw e
      | (_, UB u) => UB u
      end
  end.

(** las2txt.cpp:529-585: --precision with three or four numbers, or the header's scales *)
Definition choose_precisions (lg : f64 -> f64) (given : option (list nat)) (h : header) : outcome precisions :=
  match given with
  | Some [x; y; z] => Ok (x, y, z, 8%nat)
  | Some [x; y; z; t] => Ok (x, y, z, t)
  | Some _ => Throw ERuntime
  | None =>
      let! x := stream_precision lg (x_of (h_scale h)) in let! y := stream_precision lg (y_of (h_scale h)) in
      let! z := stream_precision lg (z_of (h_scale h)) in Ok (Z.to_nat x, Z.to_nat y, Z.to_nat z, 8%nat)
  end.
(** las2txt.cpp:587-604: the two characters \t and \n stand for a tab and a newline *)
Definition choose_delim (d : text) : text :=
  if list_eq_dec ascii_dec d (of_string "\t") then [tab] else if list_eq_dec ascii_dec d (of_string "\n") then [newline] else d.
(** las2txt.cpp:482-496: strncasecmp with a length of 5; None: the standard output *)
Definition upper (c : ascii) : ascii :=
  let n := nat_of_ascii c in if ((97 <=? n) && (n <=? 122))%nat then ascii_of_nat (n - 32) else c.
Definition output_file (name : text) : option text :=
  if list_eq_dec ascii_dec (map upper (firstn 5 name)) (of_string "STDOU") then None else Some name.

(** The text las2txt writes for the file [F].  Throw: an exception, reported by main,
    which leaves what was written before it. *)
Definition las2txt (lg : f64 -> f64) (xml : vlr -> outcome schema) (doy year : Z) (keep : option (unit -> point -> bool * unit))
    (parse delim : text) (given : option (list nat)) (labels : bool) (fuel : nat) (F : list Z) : outcome text :=
  let! r0 := reader_open xml doy year F in
  let! pr := choose_precisions lg given (r_hdr r0) in
  let d := choose_delim delim in
  let! r := reader_open xml doy year F in
  let! head := if labels then row_text (fun c => Ok (label_text c)) d parse else Ok [] in
  let! lines := write_points keep parse d pr fuel r 0 in
  Ok (head ++ lines).

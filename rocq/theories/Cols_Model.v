(** Model of what las2col puts into its column buffers:
    /repo/apps/las2col.c:366-504 (readFile, one input file), 541-577 (the Morton
    code), 580-588 (S64) and 767-896 (the letters of --parse).
    Col_Model.v has the threads that pass the buffers on.
    Simplifications: allocation succeeds; --check is not modelled; the functions
    are called through pointers of another type in the C code, which is modelled
    as a plain call whose integer arguments and result keep their low bits; the
    functions of the C API are their C++ counterparts (c_api.cpp:641-1110,
    2100-2210; handles are not null here). *)
From Coq Require Import ZArith List Bool String Ascii.
Import ListNotations.
From Verif Require Import Outcome Bytes Float64 Classif_Model Schema_Model Header_Model Vlr_Model Point_Model Stream_Model Reader_Model Reader_Api.
Local Open Scope Z_scope.

(** las2col.c:255-277; [E_none]: a letter without a case (entries stays ENTRY_x,
    the size 0 and the function null) *)
Inductive entry :=
| E_x | E_y | E_z | E_X | E_Y | E_Z | E_t | E_i | E_a | E_r | E_c | E_u | E_n | E_R | E_G | E_B | E_M | E_p | E_e | E_d | E_k | E_none.

(** las2col.c:767-888 *)
Definition entry_of (c : ascii) : entry :=
  match c with
  | "k" => E_k | "x" => E_x | "y" => E_y | "z" => E_z | "X" => E_X | "Y" => E_Y | "Z" => E_Z | "t" => E_t | "i" => E_i
  | "a" => E_a | "r" => E_r | "c" => E_c | "u" => E_u | "n" => E_n | "R" => E_R | "G" => E_G | "B" => E_B | "M" => E_M
  | "p" => E_p | "e" => E_e | "d" => E_d | _ => E_none
  end%char.
Definition entry_size (e : entry) : nat :=
  match e with
  | E_k | E_x | E_y | E_z | E_t => 8 | E_X | E_Y | E_Z | E_M => 4
  | E_i | E_r | E_n | E_R | E_G | E_B | E_p | E_e | E_d => 2 | E_a | E_c | E_u => 1 | E_none => 0
  end%nat.
(** las2col.c:764-896: the loop looks at the character after the one it has dealt
    with; the arrays have 21 places (NUM_OF_ENTRIES, line 138) *)
Definition parse_entries (s : string) : outcome (list entry) :=
  match s with
  | EmptyString => UB UBOutOfBounds
  | _ => if (21 <? String.length s)%nat then UB UBOutOfBounds else Ok (map entry_of (list_ascii_of_string s))
  end.

(** las2col.c:541-550 Expand1, on 64-bit unsigned integers *)
Definition shl64 (b k : Z) : Z := Z.land (Z.shiftl b k) (2 ^ 64 - 1).
Definition spread (b k mask : Z) : Z := Z.land (Z.lxor b (shl64 b k)) mask.
Definition expand1 (a : Z) : Z :=
  let b := Z.land a 0x7fffffff in
  let b := spread b 16 0x0000ffff0000ffff in
  let b := spread b 8 0x00ff00ff00ff00ff in
  let b := spread b 4 0x0f0f0f0f0f0f0f0f in
  let b := spread b 2 0x3333333333333333 in
  spread b 1 0x5555555555555555.
(** las2col.c:559-566 morton2D_encodeOscar; the factors arrive as unsigned int *)
Definition morton_code (p : point) (fx fy : Z) : outcome Z :=
  let! rx := get_raw_x p in let! ry := get_raw_y p in
  let x := (rx + fx mod 2 ^ 32) mod 2 ^ 32 in
  let y := (ry + fy mod 2 ^ 32) mod 2 ^ 32 in
  Ok ((shl64 (expand1 x) 1 + expand1 y) mod 2 ^ 64).
(** las2col.c:394-396: (int64_t)(offset / scale) - global offset *)
Definition factor (offset scale : f64) (global : Z) : outcome Z :=
  let! q := f64_to_int (in_signedb 64) (f64_div offset scale) in
  if in_signedb 64 (q - global) then Ok (q - global) else UB UBIntOverflow.

(** las2col.c:442-488: what is stored for one entry of one point.  [h]: the
    header of the file; [index]: the number of the point in the buffers. *)
Definition double_cell (v : outcome f64) : outcome (list Z) := let! v := v in Ok (le_enc 8 (f64_bits v)).
Definition decimal_cell (v : outcome f64) (scale : f64) : outcome (list Z) :=
  let! v := v in let! n := f64_to_int32 (f64_div v scale) in Ok (le_enc 4 n).
Definition int_cell (n : nat) (v : outcome Z) : outcome (list Z) := let! v := v in Ok (le_enc n v).
Definition entry_cell (e : entry) (h : header) (fx fy index : Z) (p : point) : outcome (list Z) :=
  match e with
  | E_x => double_cell (get_x p) | E_y => double_cell (get_y p) | E_z => double_cell (get_z p)
  | E_t => double_cell (get_time p)
  | E_X => decimal_cell (get_x p) (x_of (h_scale h))
  | E_Y => decimal_cell (get_y p) (y_of (h_scale h))
  | E_Z => decimal_cell (get_z p) (z_of (h_scale h))
  | E_i => int_cell 2 (get_intensity p)
  | E_r => int_cell 2 (get_return_number p)
  | E_n => int_cell 2 (get_number_of_returns p)
  | E_p => int_cell 2 (get_point_source_id p)
  | E_e => int_cell 2 (get_flight_line_edge p)
  | E_d => int_cell 2 (get_scan_direction p)
  | E_a => int_cell 1 (get_scan_angle p)
  | E_c => int_cell 1 (get_classification p)
  | E_u => int_cell 1 (get_user_data p)
  | E_k => int_cell 8 (morton_code p fx fy)
  | E_R => int_cell 2 (let! c := get_color p in Ok (c_red c))
  | E_G => int_cell 2 (let! c := get_color p in Ok (c_green c))
  | E_B => int_cell 2 (let! c := get_color p in Ok (c_blue c))
  | E_M => Ok (le_enc 4 index)
  | E_none => UB UBNull
  end.

(** values[index] = ... in a buffer of cells of this size *)
Definition put_cell (buf : list Z) (index : Z) (c : list Z) : outcome (list Z) :=
  let pos := Z.to_nat (index * Z.of_nat (List.length c)) in
  if index * Z.of_nat (List.length c) + Z.of_nat (List.length c) <=? Z.of_nat (List.length buf)
  then Ok (firstn pos buf ++ c ++ skipn (pos + List.length c) buf) else UB UBOutOfBounds.
(** las2col.c:440-488: the loop over the entries *)
Fixpoint put_row (es : list entry) (bufs : list (list Z)) (h : header) (fx fy index : Z) (p : point) : outcome (list (list Z)) :=
  match es, bufs with
  | e :: es, b :: bufs =>
      let! c := entry_cell e h fx fy index p in
      let! b := put_cell b index c in
      let! bufs := put_row es bufs h fx fy index p in Ok (b :: bufs)
  | _, _ => Ok []
  end.

(** las2col.c:427-495: the loop over the points.  LASReader_GetNextPoint gives
    null at the end and when reading throws (c_api.cpp:372-391).  [index] is an
    unsigned int.  The result is undefined when the fuel is used up. *)
Fixpoint read_points (skip : bool) (es : list entry) (fx fy : Z) (fuel : nat) (r : reader) (index : Z) (bufs : list (list Z))
  : outcome (list (list Z)) :=
  match fuel with
  | O => UB UBDiverge
  | S k =>
      match reader_next no_filter no_transform r tt with
      | ((r1, _), Ok true) =>
          let! ok := if skip then is_valid (r_point r1) else Ok true in
          if ok : bool
          then let! bufs := put_row es bufs (r_hdr r1) fx fy index (r_point r1) in
               read_points skip es fx fy k r1 ((index + 1) mod 2 ^ 32) bufs
          else read_points skip es fx fy k r1 ((index - 1) mod 2 ^ 32) bufs
      | (_, Ok false) | (_, Throw _) => Ok bufs
      | (_, UB u) => UB u
      end
  end.

(** las2col.c:366-504: one file.  [junk j]: what malloc returned for column [j];
    None: LASReader_Create fails and the program exits (357-362). *)
Definition file_columns (xml : vlr -> outcome schema) (doy year : Z) (skip : bool) (gx gy : Z) (es : list entry)
    (junk : nat -> Z -> list Z) (fuel : nat) (F : list Z) : outcome (option (list (list Z))) :=
  match reader_open xml doy year F with
  | Throw _ => Ok None
  | UB u => UB u
  | Ok r =>
      let h := r_hdr r in
      let bufs := map (fun je => junk (fst je) (Z.of_nat (entry_size (snd je)) * h_npts h)) (combine (seq 0 (List.length es)) es) in
      let! fx := factor (x_of (h_offset h)) (x_of (h_scale h)) gx in
      let! fy := factor (y_of (h_offset h)) (y_of (h_scale h)) gy in
      let! bufs := read_points skip es fx fy fuel r 0 bufs in Ok (Some bufs)
  end.

(** las2col.c:579-586 S64: sscanf(s, "lld%lld%c", ..): the conversion is reached
    only behind the letters lld.  The text it is applied to, or None when the
    program prints an error and exits. *)
Definition s64_text (s : string) : option string :=
  match s with
  | String "l" (String "l" (String "d" rest)) => Some rest
  | _ => None
  end%char.

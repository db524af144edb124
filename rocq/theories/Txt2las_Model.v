(** Model of txt2las: /repo/apps/txt2las.c (parse 99-347, main 350-920) over the C
    API's points, headers and writer.
    Simplifications: the options arrive parsed; the input file can be opened twice and
    does not change between the passes; messages (--verbose, warnings) are left out;
    sscanf with %lf and %f are the parameters [lf] and [flt] (a float is given by the
    double it is equal to); xyz[] and gps_time before the first value are [junk]; memory is not
    exhausted (the colour objects of lines that cannot be parsed leak); the text has no
    end-of-file characters and is not translated by stdio. *)
From Coq Require Import ZArith List Bool String Ascii.
Import ListNotations.
From Verif Require Import Outcome Bytes CStr Float64 Classif_Model Schema_Model Header_Model Vlr_Model Point_Model Stream_Model Writer_Model.
Local Open Scope string_scope.
Local Open Scope list_scope.
Local Open Scope Z_scope.

Definition text := list ascii.
Fixpoint drop_while (f : ascii -> bool) (t : text) : text := match t with [] => [] | c :: r => if f c then drop_while f r else t end.
Fixpoint take_while (f : ascii -> bool) (t : text) : text := match t with [] => [] | c :: r => if f c then c :: take_while f r else [] end.

(** fgets into char[512]: at most 511 characters, up to a newline (601, 639, 816, 868) *)
Definition newline : ascii := ascii_of_nat 10.
Fixpoint gets (room : nat) (cur t : text) : list text :=
  match t with
  | [] => match cur with [] => [] | _ => [rev cur] end
  | c :: r => if Ascii.eqb c newline || Nat.eqb room 1 then rev (c :: cur) :: gets 511 [] r else gets (room - 1) (c :: cur) r
  end.
Definition lines (t : text) : list text := gets 511 [] t.
(** what the C functions see of a line *)
Definition c_line (t : text) : text := take_while (fun c => negb (Ascii.eqb c (ascii_of_nat 0))) t.

(** sscanf with %d: white space, sign, digits; a number that does not fit is undefined *)
Definition is_space (c : ascii) : bool := let n := nat_of_ascii c in (((9 <=? n) && (n <=? 13)) || (n =? 32))%nat.
Definition is_dig (c : ascii) : bool := let n := nat_of_ascii c in ((48 <=? n) && (n <=? 57))%nat.
Definition dig_val (c : ascii) : Z := Z.of_nat (nat_of_ascii c - 48).
Definition scan_d (t : text) : outcome (option Z) :=
  let t1 := drop_while is_space t in
  let '(neg, t2) := match t1 with "-"%char :: r => (true, r) | "+"%char :: r => (false, r) | _ => (false, t1) end in
  match take_while is_dig t2 with
  | [] => Ok None
  | ds => let n := fold_left (fun n c => n * 10 + dig_val c) ds 0 in
          let v := if neg : bool then - n else n in
          if in_signedb 32 v then Ok (Some v) else UB UBIntOverflow
  end.

(** The variables a call of parse changes: xyz, gps_time, the point and the colour *)
Record scan := mkScan { s_xyz : f64x3; s_time : f64; s_pt : point; s_col : color }.
Definition with_xyz (s : scan) v := mkScan v (s_time s) (s_pt s) (s_col s).
Definition with_time (s : scan) v := mkScan (s_xyz s) v (s_pt s) (s_col s).
Definition with_pt (s : scan) v := mkScan (s_xyz s) (s_time s) v (s_col s).
Definition with_col (s : scan) v := mkScan (s_xyz s) (s_time s) (s_pt s) v.
(** LASPoint_Set...: exceptions become an error code that nobody looks at *)
Definition quiet (p : point) (o : outcome point) : outcome point := match o with Ok q => Ok q | Throw _ => Ok p | UB u => UB u end.

(** txt2las.c:114-118 and alike *)
Definition is_sep (c : ascii) : bool := Ascii.eqb c " " || Ascii.eqb c "," || Ascii.eqb c (ascii_of_nat 9).
Definition is_letter (c : ascii) : bool := existsb (Ascii.eqb c) (list_ascii_of_string "xyzsianrcupedtRGB").
(** txt2las.c:111-336: what one letter does with the text at [l]; None: return FALSE *)
Definition take_field (lf flt : text -> option f64) (c : ascii) (l : text) (s : scan) : outcome (option scan) :=
  let real (k : f64 -> outcome scan) := match lf l with None => Ok None | Some v => let! s := k v in Ok (Some s) end in
  let float (k : Z -> outcome scan) := match flt l with None => Ok None | Some v => let! n := f64_to_int32 v in let! s := k n in Ok (Some s) end in
  let int (k : Z -> outcome scan) := let! o := scan_d l in match o with None => Ok None | Some n => let! s := k n in Ok (Some s) end in
  let put f := let! p := quiet (s_pt s) (f (s_pt s)) in Ok (with_pt s p) in
  let flag n := if n =? 0 then 0 else 1 in
  match c with
  | "x" => real (fun v => Ok (with_xyz s (v, y_of (s_xyz s), z_of (s_xyz s))))
  | "y" => real (fun v => Ok (with_xyz s (x_of (s_xyz s), v, z_of (s_xyz s))))
  | "z" => real (fun v => Ok (with_xyz s (x_of (s_xyz s), y_of (s_xyz s), v)))
  | "t" => real (fun v => Ok (with_time s v))
  | "i" => float (fun n => put (fun p => set_intensity p (n mod 2 ^ 16)))
  | "a" => float (fun n => put (fun p => set_scan_angle p (to_signed 8 n)))
  | "n" => int (fun n => put (fun p => set_number_of_returns p (n mod 2 ^ 16)))
  | "r" => int (fun n => put (fun p => set_return_number p (n mod 2 ^ 16)))
  | "c" => int (fun n => put (fun p => set_classification p (n mod 2 ^ 8)))
  | "u" => int (fun n => put (fun p => set_user_data p (n mod 2 ^ 8)))
  | "p" => int (fun n => put (fun p => set_point_source_id p (n mod 2 ^ 16)))
  | "e" => int (fun n => put (fun p => set_flight_line_edge p (flag n)))
  | "d" => int (fun n => put (fun p => set_scan_direction p (flag n)))
  | "R" => int (fun n => Ok (with_col s (mkColor (n mod 2 ^ 16) (c_green (s_col s)) (c_blue (s_col s)))))
  | "G" => int (fun n => Ok (with_col s (mkColor (c_red (s_col s)) (n mod 2 ^ 16) (c_blue (s_col s)))))
  | "B" => int (fun n => Ok (with_col s (mkColor (c_red (s_col s)) (c_green (s_col s)) (n mod 2 ^ 16))))
  | _ => Ok (Some s)
  end%char.
Fixpoint parse_loop (lf flt : text -> option f64) (p l : text) (s : scan) : outcome (bool * scan) :=
  match p with
  | [] => Ok (true, s)
  | c :: r =>
      if is_letter c then
        match drop_while is_sep l with
        | [] => Ok (false, s)
        | l1 =>
            let! o := take_field lf flt c l1 s in
            match o with
            | None => Ok (false, s)
            | Some s1 => parse_loop lf flt r (drop_while (fun c => negb (is_sep c)) l1) s1
            end
        end
      else parse_loop lf flt r l s   (* 338-341: a message only *)
  end.
(** txt2las.c:99-347 *)
Definition parse (lf flt : text -> option f64) (p line : text) (xyz : f64x3) (t : f64) (pt : point) : outcome (bool * scan) :=
  let! (ok, s) := parse_loop lf flt p (c_line line) (mkScan xyz t pt color_black) in
  if ok : bool then let! q := quiet (s_pt s) (set_color (s_pt s) (s_col s)) in Ok (true, with_pt s q) else Ok (false, s).

(** txt2las.c:571-589: trailing s are cut off; the loop looks in front of the string
    if there is nothing else *)
Definition less (c : ascii) : ascii := if existsb (Ascii.eqb c) ["x"; "y"; "z"; "r"]%char then c else "s"%char.
Fixpoint strip (l : text) : outcome text :=
  match l with [] => UB UBOutOfBounds | c :: r => if Ascii.eqb c "s" then strip r else Ok (rev l) end.
Definition parse_less (p : text) : outcome text := strip (rev (map less p)).

(** txt2las.c:85-97 *)
Definition upd_min (m v : f64) : f64 := if f64_lt v m then v else m.
Definition upd_max (m x v : f64) : f64 := if f64_lt v m then x else if f64_lt x v then v else x.
Definition map2_3 (f : f64 -> f64 -> f64) (a b : f64x3) : f64x3 := (f (x_of a) (x_of b), f (y_of a) (y_of b), f (z_of a) (z_of b)).
Definition upd_max3 (m x v : f64x3) : f64x3 := (upd_max (x_of m) (x_of x) (x_of v), upd_max (y_of m) (y_of x) (y_of v), upd_max (z_of m) (z_of x) (z_of v)).

(** The first pass (600-661): number of points, box, histogram *)
Record stats := mkStats { t_n : Z; t_min : f64x3; t_max : f64x3; t_hist : list Z }.
Definition count_return (hist : list Z) (k : Z) : list Z := list_set hist (Z.to_nat k) ((nth (Z.to_nat k) hist 0 + 1) mod 2 ^ 32).
Fixpoint pass1 (lf flt : text -> option f64) (dh : header) (p : text) (ls : list text) (xyz : f64x3) (t : f64) (acc : option stats) : outcome (option stats * f64x3 * f64) :=
  match ls with
  | [] => Ok (acc, xyz, t)
  | l :: r =>
      let! (ok, s) := parse lf flt p l xyz t (point_new dh) in
      let v := s_xyz s in
      if ok : bool then
        let! k := get_return_number (s_pt s) in
        let acc1 := match acc with
                    | None => mkStats 1 v v (count_return (repeat 0 8) k)
                    | Some a => mkStats ((t_n a + 1) mod 2 ^ 32) (map2_3 upd_min (t_min a) v) (upd_max3 (t_min a) (t_max a) v) (count_return (t_hist a) k)
                    end in
        pass1 lf flt dh p r v (s_time s) (Some acc1)
      else pass1 lf flt dh p r v (s_time s) acc
  end.

(** 693-705: the box after quantisation *)
Definition box_value (v scale offset : f64) : outcome f64 :=
  let! q := f64_to_int32 (f64_add f64_half (f64_div (f64_sub v offset) scale)) in Ok (f64_add offset (f64_mul (f64_of_Z q) scale)).
Definition box_values (v scale offset : f64x3) : outcome f64x3 :=
  let! x := box_value (x_of v) (x_of scale) (x_of offset) in let! y := box_value (y_of v) (y_of scale) (y_of offset) in
  let! z := box_value (z_of v) (z_of scale) (z_of offset) in Ok (x, y, z).

Record options := mkOpt { o_parse : text; o_scale : f64x3; o_offset : f64x3; o_minor : Z; o_day : Z; o_year : Z; o_sys : option (list Z); o_soft : option (list Z) }.
(** 488-507: strcpy into 31 characters *)
Definition copy31 (t : list Z) : outcome (list Z) := if (31 <=? List.length t)%nat then UB UBOutOfBounds else Ok t.
Definition has (c : ascii) (p : text) : bool := existsb (Ascii.eqb c) p.
(** 747-769 *)
Definition point_format (p : text) : Z :=
  let rgb := has "R" p || has "G" p || has "B" p in
  if has "t" p && rgb then 3 else if rgb then 2 else if has "t" p then 1 else 0.
(** 731-778: error codes are ignored *)
Definition kept_hdr (h : header) (o : outcome header) : outcome header := match o with Ok h' => Ok h' | Throw _ => Ok h | UB u => UB u end.
Definition opt_text (h : header) (f : header -> list Z -> outcome header) (t : option (list Z)) : outcome header :=
  match t with None => Ok h | Some t => let! t := copy31 t in kept_hdr h (f h t) end.
Definition by_return (h : header) (hist : list Z) (k : Z) : outcome header := kept_hdr h (set_by_return h k (nth (Z.to_nat (k + 1)) hist 0)).
Definition make_header (doy year : Z) (o : options) (a : stats) (lo hi : f64x3) : outcome header :=
  let! h := header_new doy year in
  let! h := opt_text h set_system_id (o_sys o) in
  let! h := opt_text h set_software_id (o_soft o) in
  let h := set_creation_year (set_creation_doy h (o_day o)) (o_year o) in
  let! h := kept_hdr h (set_version_minor h (o_minor o)) in
  let fmt := point_format (o_parse o) in
  let! h := match set_header_format h fmt with (h1, UB u) => UB u | (h1, _) => Ok h1 end in
  let! h := if (fmt =? 2) || (fmt =? 3) then kept_hdr h (set_version_minor h 2) else Ok h in
  let h := set_point_count h (t_n a) in
  let h := set_offset (set_scale h (x_of (o_scale o)) (y_of (o_scale o)) (z_of (o_scale o))) (x_of (o_offset o)) (y_of (o_offset o)) (z_of (o_offset o)) in
  let h := set_max (set_min h (x_of lo) (y_of lo) (z_of lo)) (x_of hi) (y_of hi) (z_of hi) in
  let! h := by_return h (t_hist a) 0 in let! h := by_return h (t_hist a) 1 in let! h := by_return h (t_hist a) 2 in
  let! h := by_return h (t_hist a) 3 in by_return h (t_hist a) 4.

(** The second pass (815-909), number of points written so far in the writer; None:
    exit(1) *)
Fixpoint pass2 (lf flt : text -> option f64) (dh h : header) (p : text) (ls : list text) (xyz : f64x3) (t : f64) (w : writer) : outcome (option (writer * bool)) :=
  match ls with
  | [] => Ok (Some (w, false))
  | l :: r =>
      let! pt := set_header (point_new dh) h in
      let! (ok, s) := parse lf flt p l xyz t pt in
      let v := s_xyz s in
      if ok : bool then
        let q := s_pt s in
        let! q := quiet q (set_x q (x_of v)) in let! q := quiet q (set_y q (y_of v)) in let! q := quiet q (set_z q (z_of v)) in
        let! q := quiet q (set_time q (s_time s)) in
        match write_point w q with
        | Ok w1 => let! o := pass2 lf flt dh h p r v (s_time s) w1 in Ok (match o with Some (w2, _) => Some (w2, true) | None => None end)
        | Throw _ => Ok None
        | UB u => UB u
        end
      else pass2 lf flt dh h p r v (s_time s) w
  end.

(** What the program leaves in the output file; None: exit(1) *)
Definition txt2las (lf flt : text -> option f64) (sv : schema -> vlr) (doy year : Z) (junk : f64x3) (junk_time : f64) (o : options) (t : text) : outcome (option (list Z)) :=
  let! dh := header_new doy year in
  let! pl := parse_less (o_parse o) in
  let! (acc, xyz, tm) := pass1 lf flt dh pl (lines t) junk junk_time None in
  match acc with
  | None => Ok None
  | Some a =>
      let! lo := box_values (t_min a) (o_scale o) (o_offset o) in
      let! hi := box_values (t_max a) (o_scale o) (o_offset o) in
      let! h := make_header doy year o a lo hi in
      match writer_new sv (os_open []) h with
      | Throw _ => Ok None   (* 800-803 *)
      | UB u => UB u
      | Ok w =>
          let! r := pass2 lf flt dh h (o_parse o) (lines t) xyz tm w in
          match r with
          | None => Ok None
          | Some (w1, some) =>
              (* 859-865: the number of the first pass, if no line was parsed *)
              if some || (t_n a =? 1) then let! d := writer_close w1 in Ok (Some d) else Ok None
          end
      end
  end.

(** 536-552: the name of the output file, in a buffer of strlen + 1 characters *)
Fixpoint last_dot (n : nat) (t : text) : nat :=
  match n with O => O | S k => match nth_error t n with Some c => if Ascii.eqb c "." then n else last_dot k t | None => last_dot k t end end.
Definition output_name (t : text) : outcome text :=
  let n := last_dot (List.length t) t in
  if (List.length t <? n + 4)%nat then UB UBOutOfBounds else Ok (firstn n t ++ list_ascii_of_string ".las").

(** What txt2las' LAS file has to say about a table of text: the letters of --parse
    (txt2las.c:46-64, the usage text), the LAS record (Point_Spec, Cols_Spec) and the
    usual reading of decimal numbers (Txt_Spec). *)
From Coq Require Import ZArith List Bool String Ascii Reals.
Import ListNotations.
From Flocq Require Import Core BinarySingleNaN Binary Bits.
From Verif Require Import Outcome Bytes Float64 Float64_Proofs Header_Model Point_Spec Reader_Spec IO_Spec Coord_Api Cols_Spec Txt_Spec.
Local Open Scope list_scope.
Local Open Scope Z_scope.

(** ** Texts *)
Definition nl : ascii := ascii_of_nat 10.
Definition separator (c : ascii) : Prop := c = " "%char \/ c = ","%char \/ c = ascii_of_nat 9.
(** a text that can be one column: something, without separators, newlines and NUL *)
Definition cell_text (t : list ascii) : Prop := t <> [] /\ forall c, In c t -> ~ separator c /\ c <> nl /\ c <> ascii_of_nat 0.
Definition decimal (t : list ascii) : option R := match number t with Some (m, q) => Some (IZR m / 10 ^ q)%R | None => None end.
(** the text of column [c] of a row, the last one if there are several *)
Fixpoint last_text (c : ascii) (parse : list ascii) (row : list (list ascii)) : option (list ascii) :=
  match parse, row with
  | a :: p, t :: r => match last_text c p r with Some u => Some u | None => if Ascii.eqb a c then Some t else None end
  | _, _ => None
  end.

(** ** sscanf: a number up to a separator or the end of the line *)
Definition nearest_double (x : R) : R := round radix2 (FLT_exp (-1074) 53) ZnearestE x.
Definition ends (rest : list ascii) : Prop := match rest with [] => True | c :: _ => separator c \/ c = nl end.
Definition reads_doubles (lf : list ascii -> option f64) : Prop :=
  forall t rest x, decimal t = Some x -> ends rest -> (Rabs x <= bpow radix2 1000)%R ->
  exists v, lf (t ++ rest) = Some v /\ f64_fin v = true /\ f64_R v = nearest_double x.
(** a float holds every whole number up to 2^24 *)
Definition reads_floats (flt : list ascii -> option f64) : Prop :=
  forall t rest n, number t = Some (n, O) -> ends rest -> Z.abs n <= 2 ^ 24 ->
  exists v, flt (t ++ rest) = Some v /\ f64_fin v = true /\ f64_R v = IZR n.

(** ** Columns *)
(** the fields of a record a column can give, and their values *)
Definition stored_letter (c : ascii) : option (attr * Z * Z) :=
  match c with
  | "i" => Some (AIntensity, 0, 65535) | "a" => Some (AScanAngleRank, -128, 127)
  | "n" => Some (ANumberOfReturns, 0, 7) | "r" => Some (AReturnNumber, 0, 7)
  | "c" => Some (AClassification, 0, 255) | "u" => Some (AUserData, 0, 255) | "p" => Some (APointSourceId, 0, 65535)
  | "e" => Some (AFlightLineEdge, 0, 1) | "d" => Some (AScanDirection, 0, 1)
  | "R" => Some (ARed, 0, 65535) | "G" => Some (AGreen, 0, 65535) | "B" => Some (ABlue, 0, 65535)
  | _ => None
  end%char.
Definition value (F : list Z) (a : attr) (rec : list Z) : Z :=
  match a with AScanAngleRank => raw_value a rec | _ => field (fmt F) a rec end.
(** the text [t] can be taken as column [c], for coordinates with the given scales and offsets *)
Definition column_fits (scale offset : f64x3) (c : ascii) (t : list ascii) : Prop :=
  match double_letter c, stored_letter c with
  | Some ax, _ => exists x, decimal t = Some x /\ (Rabs (x - f64_R (axis_of offset ax)) <= 2147483646 * Rabs (f64_R (axis_of scale ax)))%R
  | None, Some (a, lo, hi) => exists n, number t = Some (n, O) /\ lo <= n <= hi
  | None, None => (c = "t"%char /\ exists x, decimal t = Some x /\ (Rabs x <= bpow radix2 1000)%R) \/ (c = "s"%char /\ cell_text t)
  end.
(** Scales and offsets in range *)
Definition scaling_fits (scale offset : f64x3) : Prop :=
  forall ax, scale_ok (axis_of scale ax) /\ f64_fin (axis_of offset ax) = true /\
    (Rabs (f64_R (axis_of offset ax)) <= 1125899906842624 * Rabs (f64_R (axis_of scale ax)))%R.

(** The table in a text: rows of columns, [d] between the columns *)
Definition delimiter (d : list ascii) : Prop := d <> [] /\ forall c, In c d -> separator c.
Definition table_text (d : list ascii) (rows : list (list (list ascii))) : list ascii := List.concat (map (line d) rows).

(** ** The record of a row *)
(** the whole number stored for the coordinate [x]: half a scale step away at most, apart
    from rounding; the right one when [x] is near a multiple of the scale *)
Definition stored_coordinate (s o : f64) (x : R) (n : Z) : Prop :=
  (Rabs (IZR n * f64_R s + f64_R o - x) <= Rabs (f64_R s) * (/ 2 + / 65536) + u64 * Rabs x)%R /\
  forall k, (Rabs (IZR k * f64_R s + f64_R o - x) <= Rabs (f64_R s) / 16 -> u64 * Rabs x <= Rabs (f64_R s) / 8 -> n = k)%R.
Definition record_of_row (F : list Z) (scale offset : f64x3) (parse : list ascii) (row : list (list ascii)) (rec : list Z) : Prop :=
  (forall c ax, double_letter c = Some ax -> exists t x, last_text c parse row = Some t /\ decimal t = Some x /\
     stored_coordinate (axis_of scale ax) (axis_of offset ax) x (raw_value (raw_attr ax) rec)) /\
  (forall c a lo hi, stored_letter c = Some (a, lo, hi) ->
     match last_text c parse row with Some t => number t = Some (value F a rec, O) | None => value F a rec = 0 end) /\
  match last_text "t"%char parse row with
  | Some t => exists x, decimal t = Some x /\ f64_fin (f64_of_bits (field (fmt F) ATime rec)) = true /\ f64_R (f64_of_bits (field (fmt F) ATime rec)) = nearest_double x
  | None => field (fmt F) ATime rec = 0
  end.

(** The point format a table needs *)
Definition format_of (parse : list ascii) : Z :=
  let time := existsb (Ascii.eqb "t"%char) parse in
  let rgb := existsb (fun c => existsb (Ascii.eqb c) ["R"; "G"; "B"]%char) parse in
  (if rgb then 2 else 0) + (if time then 1 else 0).
(** How many records have return number [k] *)
Definition returns (F : list Z) (k : Z) : Z :=
  Z.of_nat (List.length (filter (fun rec => field (fmt F) AReturnNumber rec =? k) (records_from F 0))).

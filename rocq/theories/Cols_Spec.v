(** What a column of las2col is, by its letter (las2col.c:168-189, the usage
    text) and the LAS record (Point_Spec). *)
From Coq Require Import ZArith List Bool String Ascii Reals.
Import ListNotations.
From Flocq Require Import Core BinarySingleNaN Binary Bits.
From Verif Require Import Outcome Bytes Float64 Point_Spec Point_Model Reader_Spec IO_Spec Coord_Api.
Local Open Scope Z_scope.

(** The bits of a field of a record, zero when the format does not have it *)
Definition field (fmt : Z) (a : attr) (rec : list Z) : Z :=
  match attr_range fmt a with Some (s, w, _) => bits_at (le_dec rec) s w | None => 0 end.
Definition raw_value (a : attr) (rec : list Z) : Z :=
  match attr_range 0 a with Some (s, w, sg) => decode_bits sg w (bits_at (le_dec rec) s w) | None => 0 end.

(** Scale and offset of a file *)
Definition place (ax : axis) : nat := match ax with AxX => 0 | AxY => 1 | AxZ => 2 end.
Definition file_scale (F : list Z) (ax : axis) : f64 := f64_of_bits (u_at F (131 + 8 * place ax) 8).
Definition file_offset (F : list Z) (ax : axis) : f64 := f64_of_bits (u_at F (155 + 8 * place ax) 8).
(** The coordinate of a record *)
Definition coordinate (F : list Z) (ax : axis) (rec : list Z) : f64 :=
  f64_add (f64_mul (f64_of_Z (raw_value (raw_attr ax) rec)) (file_scale F ax)) (file_offset F ax).

(** The letters for fields, with the size of a cell *)
Definition field_letter (c : ascii) : option (attr * nat) :=
  match c with
  | "t" => Some (ATime, 8%nat)
  | "i" => Some (AIntensity, 2%nat) | "n" => Some (ANumberOfReturns, 2%nat) | "r" => Some (AReturnNumber, 2%nat)
  | "p" => Some (APointSourceId, 2%nat) | "e" => Some (AFlightLineEdge, 2%nat) | "d" => Some (AScanDirection, 2%nat)
  | "R" => Some (ARed, 2%nat) | "G" => Some (AGreen, 2%nat) | "B" => Some (ABlue, 2%nat)
  | "a" => Some (AScanAngleRank, 1%nat) | "c" => Some (AClassification, 1%nat) | "u" => Some (AUserData, 1%nat)
  | _ => None
  end%char.
Definition double_letter (c : ascii) : option axis :=
  match c with "x" => Some AxX | "y" => Some AxY | "z" => Some AxZ | _ => None end%char.
Definition decimal_letter (c : ascii) : option axis :=
  match c with "X" => Some AxX | "Y" => Some AxY | "Z" => Some AxZ | _ => None end%char.

(** [code] has the bits of [y] at its even and those of [x] at its odd places, 31 of each *)
Definition interleaved (x y code : Z) : Prop :=
  0 <= code < 2 ^ 62 /\ forall i, 0 <= i < 31 -> Z.testbit code (2 * i) = Z.testbit y i /\ Z.testbit code (2 * i + 1) = Z.testbit x i.

(** The shift of the Morton code on an axis: the offset in units of the scale, minus the global offset *)
Definition shift (F : list Z) (ax : axis) (global z : Z) : Prop :=
  exists q, f64_to_int (in_signedb 64) (f64_div (file_offset F ax) (file_scale F ax)) = Ok q /\ z = q - global /\ in_signed 64 z.

(** The bytes of the cell of letter [c] for record number [i] of the file *)
Definition cell (F : list Z) (fx fy : Z) (c : ascii) (i : Z) (rec bytes : list Z) : Prop :=
  match field_letter c, double_letter c, decimal_letter c with
  | Some (a, n), _, _ => bytes = le_enc n (field (u_at F 104 1) a rec)
  | _, Some ax, _ => bytes = le_enc 8 (f64_bits (coordinate F ax rec))
  | _, _, Some ax => exists n, f64_to_int32 (f64_div (coordinate F ax rec) (file_scale F ax)) = Ok n /\ bytes = le_enc 4 n
  | None, None, None =>
      (c = "M"%char /\ bytes = le_enc 4 i) \/
      (c = "k"%char /\ exists code, interleaved (raw_value ARawX rec + fx) (raw_value ARawY rec + fy) code /\ bytes = le_enc 8 code)
  end.
Definition known_letter (c : ascii) : Prop := In c (list_ascii_of_string "txyzXYZainrcupedRGBMk").

(** A decimal letter needs its values in 32 bits *)
Definition decimals_fit (F : list Z) (c : ascii) : Prop :=
  match decimal_letter c with
  | None => True
  | Some ax => forall rec, In rec (records_from F 0) ->
      exists n, f64_to_int32 (f64_div (coordinate F ax rec) (file_scale F ax)) = Ok n
  end.

(** [col] is the column of letter [c]: the cells of the records, one after the other *)
Definition column_is (F : list Z) (fx fy : Z) (c : ascii) (col : list Z) : Prop :=
  exists cells, col = List.concat cells /\ List.length cells = Z.to_nat (f_npts F) /\
    forall i rec bytes, nth_error (records_from F 0) i = Some rec -> nth_error cells i = Some bytes -> cell F fx fy c (Z.of_nat i) rec bytes.

(** What las2txt's text says, by the letters of --parse (las2txt.cpp:392-416, the
    usage text), the LAS record (Point_Spec, Cols_Spec) and the usual reading of
    decimal numbers. *)
From Coq Require Import ZArith List Bool String Ascii Reals.
Import ListNotations.
From Flocq Require Import Core BinarySingleNaN Binary Bits.
From Verif Require Import Outcome Bytes Float64 Float64_Proofs Point_Spec Point_Model Reader_Spec IO_Spec Coord_Api Cols_Spec.
Local Open Scope string_scope.
Local Open Scope list_scope.
Local Open Scope Z_scope.

(** ** Reading numbers *)
Definition is_digit (c : ascii) : bool := let n := nat_of_ascii c in ((48 <=? n) && (n <=? 57))%nat.
Definition digit_value (c : ascii) : Z := Z.of_nat (nat_of_ascii c) - 48.
(** the number a non-empty text of digits stands for *)
Definition whole (t : list ascii) : option Z :=
  if forallb is_digit t && negb (match t with [] => true | _ => false end)
  then Some (fold_left (fun n c => 10 * n + digit_value c) t 0) else None.
(** the parts between the separators *)
Fixpoint split_on (c : ascii) (t : list ascii) : list (list ascii) :=
  match t with
  | [] => [[]]
  | x :: r => if Ascii.eqb x c then [] :: split_on c r
              else match split_on c r with [] => [[x]] | h :: l => (x :: h) :: l end
  end.
(** digits, or digits point digits: all the digits as one number, and how many are behind the point *)
Definition plain_number (t : list ascii) : option (Z * nat) :=
  match split_on "."%char t with
  | [a] => match whole a with Some n => Some (n, O) | None => None end
  | [a; b] => match whole a, whole b with Some _, Some _ => match whole (a ++ b) with Some n => Some (n, List.length b) | None => None end | _, _ => None end
  | _ => None
  end.
Definition number (t : list ascii) : option (Z * nat) :=
  match t with
  | "-"%char :: r => match plain_number r with Some (n, p) => Some (- n, p) | None => None end
  | _ => plain_number t
  end.

(** ** What a letter stands for *)
Definition fmt (F : list Z) : Z := u_at F 104 1.
Definition whole_letter (F : list Z) (i : Z) (rec : list Z) (c : ascii) : option Z :=
  match c with
  | "X" => Some (raw_value ARawX rec) | "Y" => Some (raw_value ARawY rec) | "Z" => Some (raw_value ARawZ rec)
  | "a" => Some (raw_value AScanAngleRank rec)
  | "i" => Some (field (fmt F) AIntensity rec) | "n" => Some (field (fmt F) ANumberOfReturns rec) | "r" => Some (field (fmt F) AReturnNumber rec)
  | "p" => Some (field (fmt F) APointSourceId rec) | "e" => Some (field (fmt F) AFlightLineEdge rec) | "d" => Some (field (fmt F) AScanDirection rec)
  | "R" => Some (field (fmt F) ARed rec) | "G" => Some (field (fmt F) AGreen rec) | "B" => Some (field (fmt F) ABlue rec)
  | "c" => Some (field (fmt F) AClassification rec mod 32) | "u" => Some (field (fmt F) AUserData rec)
  | "M" => Some i
  | _ => None
  end%char.
Definition real_letter (F : list Z) (rec : list Z) (c : ascii) : option f64 :=
  match c with
  | "x" => Some (coordinate F AxX rec) | "y" => Some (coordinate F AxY rec) | "z" => Some (coordinate F AxZ rec)
  | "t" => Some (f64_of_bits (field (fmt F) ATime rec))
  | _ => None
  end%char.
Definition decimals (pr : nat * nat * nat * nat) (c : ascii) : nat :=
  let '(px, py, pz, pt) := pr in match c with "x" => px | "y" => py | "z" => pz | _ => pt end%char.
(** The ASPRS classes (LAS 1.2, table 4.10; 10, 11 and 13-31 are reserved) *)
Definition class_name (n : Z) : string :=
  match n with
  | 0 => "Created, never classified" | 1 => "Unclassified" | 2 => "Ground" | 3 => "Low Vegetation" | 4 => "Medium Vegetation" | 5 => "High Vegetation"
  | 6 => "Building" | 7 => "Low Point (noise)" | 8 => "Model Key-point (mass point)" | 9 => "Water" | 12 => "Overlap Points"
  | _ => "Reserved for ASPRS Definition"
  end.

(** [m] units of 10^-p are nearest to [x] *)
Definition nearest_decimal (p : nat) (x : R) (m : Z) : Prop := (Rabs (IZR m - x * 10 ^ p) <= / 2)%R.
(** [t] is a field for letter [c] of record [rec], number [i] of the output *)
Definition prints (F : list Z) (pr : nat * nat * nat * nat) (i : Z) (rec : list Z) (c : ascii) (t : list ascii) : Prop :=
  match whole_letter F i rec c, real_letter F rec c with
  | Some n, _ => number t = Some (n, O)
  | None, Some x => f64_fin x = true -> exists m, number t = Some (m, decimals pr c) /\ nearest_decimal (decimals pr c) (f64_R x) m
  | None, None => t = if Ascii.eqb c "C"%char then list_ascii_of_string (class_name (field (fmt F) AClassification rec mod 32)) else []
  end.

(** A line: the fields with the delimiter between them *)
Fixpoint join (d : list ascii) (l : list (list ascii)) : list ascii :=
  match l with [] => [] | [t] => t | t :: r => t ++ d ++ join d r end.
Definition line (d : list ascii) (fields : list (list ascii)) : list ascii := join d fields ++ [ascii_of_nat 10].
(** The table of a list of records: a row for each, a field for each letter *)
Definition table (F : list Z) (pr : nat * nat * nat * nat) (parse : list ascii) (recs : list (list Z)) (rows : list (list (list ascii))) : Prop :=
  List.length rows = List.length recs /\
  forall i rec row, nth_error recs i = Some rec -> nth_error rows i = Some row -> Forall2 (prints F pr (Z.of_nat i) rec) parse row.

(** ** std::log10: to 40 bits behind the point *)
Definition log10_ok (lg : f64 -> f64) : Prop :=
  (forall x, f64_fin x = true -> f64_R x = 0%R -> lg x = B754_infinity 53 1024 true) /\
  (forall x, f64_fin x = true -> (0 < f64_R x)%R -> f64_fin (lg x) = true /\ (Rabs (f64_R (lg x) - ln (f64_R x) / ln 10) <= / 2 ^ 40)%R).
